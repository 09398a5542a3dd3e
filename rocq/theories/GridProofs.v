(** * Energy grids over the reals (support for C18, C19, C25, C28, C38) *)
From Coq Require Import ZArith Reals List Bool Lra Lia.
From Verif Require Import Num NumR Structures EnergyTable.
Import ListNotations.
Local Open Scope R_scope.

Lemma LN10_pos : 0 < LN10_ (F:=R).
Proof. unfold LN10_. numR. dec_norm. lra. Qed.

Lemma eps_val : numeric_epsilon (F:=R) = 10 / 4503599627370496.
Proof. unfold numeric_epsilon. numR. dec_norm. lra. Qed.
Lemma eps_pos : 0 < numeric_epsilon (F:=R).
Proof. rewrite eps_val. lra. Qed.
Lemma eps_small : numeric_epsilon (F:=R) < 1 / 100000000000000.
Proof. rewrite eps_val. lra. Qed.

Section Grid.
  Variables (n : nat) (lmin lmax : R).
  Hypothesis n2 : (2 <= n)%nat.
  Hypothesis nmax : (Z.of_nat n < 2147483648)%Z.
  Hypothesis lim : lmin < lmax.

  Definition gstep : R := (lmax - lmin) / (INR n - 1).
  (** the point at a real-valued position s *)
  Definition gval (s : R) : R := exp (LN10_ * (lmin + s * gstep)).

  Lemma nR : 2 <= INR n.
  Proof. replace 2 with (INR 2) by (simpl; lra). now apply le_INR. Qed.

  Lemma gstep_pos : 0 < gstep.
  Proof. unfold gstep. pose proof nR. apply Rdiv_lt_0_compat; lra. Qed.

  Lemma gval_pos s : 0 < gval s.
  Proof. apply exp_pos. Qed.

  Lemma gval_lt s t : s < t -> gval s < gval t.
  Proof.
    intros H. apply exp_increasing. apply Rmult_lt_compat_l; [apply LN10_pos|].
    pose proof gstep_pos. nra.
  Qed.
  Lemma gval_le s t : s <= t -> gval s <= gval t.
  Proof. intros [H| ->]; [left; now apply gval_lt | lra]. Qed.
  Lemma gval_inj s t : gval s <= gval t -> s <= t.
  Proof.
    intros H. destruct (Rle_lt_dec s t); auto. pose proof (gval_lt t s r). lra.
  Qed.
  Lemma gval_lt_inj s t : gval s < gval t -> s < t.
  Proof. intros H. destruct (Rlt_le_dec s t); auto. pose proof (gval_le t s r). lra. Qed.

  Lemma gval_ratio s : gval (s + 1) / gval s = exp (LN10_ * gstep).
  Proof.
    unfold gval. rewrite <- (Rmult_1_r (exp (LN10_ * gstep))).
    apply Rmult_eq_reg_r with (exp (LN10_ * (lmin + s * gstep))); [|apply Rgt_not_eq, exp_pos].
    unfold Rdiv. rewrite Rmult_assoc, Rinv_l by (apply Rgt_not_eq, exp_pos).
    rewrite !Rmult_1_r, <- exp_plus. f_equal. ring.
  Qed.

  Notation tab := (et_make n lmin lmax).

  Lemma et_step_R : et_step tab = gstep.
  Proof. unfold gstep. simpl. rewrite <- INR_IZR_INZ. dec_norm. f_equal. lra. Qed.

  Lemma et_point_R i : et_point lmin (et_step tab) i = gval (INR i).
  Proof. unfold et_point, gval. rewrite et_step_R. numR. now rewrite <- INR_IZR_INZ. Qed.

  Lemma et_n_R : et_n tab = n.
  Proof. reflexivity. Qed.
  Lemma et_values_eq : et_values tab = map (fun i => gval (INR i)) (seq 0 n).
  Proof.
    change (et_values tab) with (map (et_point lmin (et_step tab)) (seq 0 n)).
    apply map_ext. intros i. apply et_point_R.
  Qed.
  Lemma et_values_length : length (et_values tab) = n.
  Proof. rewrite et_values_eq, map_length, seq_length. reflexivity. Qed.

  Lemma et_nth i : (i < n)%nat -> nth_error (et_values tab) i = Some (gval (INR i)).
  Proof.
    intros H. rewrite et_values_eq.
    erewrite map_nth_error; [reflexivity|].
    rewrite nth_error_nth' with (d := 0%nat) by (now rewrite seq_length).
    f_equal. now rewrite seq_nth.
  Qed.

  Lemma et_aget i : (0 <= i < Z.of_nat n)%Z -> aget (et_values tab) i = Ok (gval (IZR i)).
  Proof.
    intros H. apply aget_ok. split; [lia|]. rewrite et_nth by lia.
    rewrite INR_IZR_INZ, Z2Nat.id by lia. reflexivity.
  Qed.

  Definition gfirst : R := gval 0.
  Definition glast : R := gval (INR n - 1).

  Lemma glast_IZR : glast = gval (IZR (Z.of_nat n - 1)).
  Proof. unfold glast. rewrite minus_IZR, <- INR_IZR_INZ. reflexivity. Qed.

  Lemma gfirst_val : gfirst = exp (LN10_ * lmin).
  Proof. unfold gfirst, gval. f_equal. ring. Qed.
  Lemma glast_val : glast = exp (LN10_ * lmax).
  Proof. unfold glast, gval, gstep. f_equal. pose proof nR. field. lra. Qed.
  Lemma gfirst_lt_glast : gfirst < glast.
  Proof. apply gval_lt. pose proof nR. lra. Qed.

  (** position of a positive number on the logarithmic scale *)
  Definition pos_of (v : R) : R := ln (v / gfirst) / LN10_ / gstep.
  Lemma gval_pos_of v : 0 < v -> gval (pos_of v) = v.
  Proof.
    intros H. unfold gval, pos_of. pose proof LN10_pos. pose proof gstep_pos.
    replace (LN10_ * (lmin + ln (v / gfirst) / LN10_ / gstep * gstep))
      with (LN10_ * lmin + ln (v / gfirst)) by (field; lra).
    rewrite exp_plus, exp_ln.
    - rewrite gfirst_val. field. apply Rgt_not_eq, exp_pos.
    - apply Rdiv_lt_0_compat; auto. apply gval_pos.
  Qed.

  (** *** The lookup *)
  Lemma index_below v : v < gfirst -> et_index tab v = Ok (-1)%Z.
  Proof.
    intros H. unfold et_index. rewrite et_n_R.
    rewrite et_aget by lia. cbn [bind]. fold gfirst. numR.
    destruct (Rltb_spec v gfirst); [reflexivity|contradiction].
  Qed.

  Lemma step_nz : Reqb (et_step tab) (Rlit 0.0) = false.
  Proof. apply Reqb_false. rewrite et_step_R. dec_norm. pose proof gstep_pos. lra. Qed.

  Lemma index_above v : gfirst <= v -> glast - numeric_epsilon <= v ->
    et_index tab v = Ok (Z.of_nat n - 1)%Z.
  Proof.
    intros H1 H2. unfold et_index. rewrite et_n_R.
    rewrite et_aget by lia. cbn [bind]. fold gfirst. numR. rewrite step_nz.
    destruct (Rltb_spec v gfirst); [lra|]. cbn [orb].
    rewrite et_aget by lia. cbn [bind]. rewrite <- glast_IZR.
    destruct (Rleb_spec (glast - numeric_epsilon) v); [reflexivity|contradiction].
  Qed.

  Lemma index_inside_cases v : gfirst <= v < glast - numeric_epsilon ->
    exists i, et_index tab v = Ok i /\ (0 <= i <= Z.of_nat n - 2)%Z /\
              (gval (IZR i) <= v < gval (IZR (i + 1)) - numeric_epsilon \/
               gval (IZR i) - numeric_epsilon <= v < gval (IZR i)).
  Proof.
    intros [H1 H2]. unfold et_index. rewrite et_n_R.
    rewrite et_aget by lia. cbn [bind]. fold gfirst. numR. rewrite step_nz.
    destruct (Rltb_spec v gfirst); [lra|]. cbn [orb].
    rewrite et_aget by lia. cbn [bind]. rewrite <- glast_IZR.
    destruct (Rleb_spec (glast - numeric_epsilon) v); [lra|].
    assert (V : 0 < v) by (pose proof (gval_pos 0); unfold gfirst in H1; lra).
    rewrite et_step_R. fold (pos_of v).
    pose proof (gval_pos_of v V) as PV.
    assert (P0 : 0 <= pos_of v) by (apply gval_inj; rewrite PV; exact H1).
    assert (P1 : pos_of v < INR n - 1).
    { apply gval_lt_inj. rewrite PV. fold glast. pose proof eps_pos. lra. }
    set (i := Rfloor_Z (pos_of v)).
    destruct (Rfloor_bound (pos_of v)) as [B1 B2]. fold i in B1, B2.
    assert (I0 : (0 <= i)%Z).
    { assert (IZR (-1) < IZR i) by (simpl; lra). apply lt_IZR in H. lia. }
    assert (I1 : (i < Z.of_nat n - 1)%Z).
    { apply lt_IZR. rewrite minus_IZR, <- INR_IZR_INZ. lra. }
    rewrite Rto_int_IZR by lia. cbn [bind cast].
    rewrite et_aget by lia. cbn [bind].
    assert (L : gval (IZR i) <= v) by (rewrite <- PV; apply gval_le; exact B1).
    assert (U : v < gval (IZR (i + 1))) by (rewrite <- PV; apply gval_lt; rewrite plus_IZR; exact B2).
    pose proof eps_pos as E.
    destruct (Rleb_spec (gval (IZR (i + 1)) - numeric_epsilon) v) as [C|C].
    - exists (i + 1)%Z.
      assert (i + 1 <= Z.of_nat n - 2)%Z.
      { destruct (Z.eq_dec (i + 1) (Z.of_nat n - 1)) as [Q|Q]; [|lia].
        rewrite Q, <- glast_IZR in C. lra. }
      split; [reflexivity|]. split; [lia|]. right. split; [exact C|exact U].
    - exists i. split; [reflexivity|]. split; [lia|]. left. lra.
  Qed.

  Lemma index_inside v : gfirst <= v < glast - numeric_epsilon ->
    exists i, et_index tab v = Ok i /\ (0 <= i <= Z.of_nat n - 2)%Z /\
              gval (IZR i) - numeric_epsilon <= v < gval (IZR (i + 1)).
  Proof.
    intros H. destruct (index_inside_cases v H) as (i & E & B & C).
    exists i. split; auto. split; auto. pose proof eps_pos.
    assert (gval (IZR i) < gval (IZR (i + 1))) by (apply gval_lt; rewrite plus_IZR; lra). lra.
  Qed.

  (** with the grid wider than the tolerance the upper bracket is as sharp as the lower one *)
  Lemma index_inside_sharp v :
    (forall i, (0 <= i <= Z.of_nat n - 2)%Z -> gval (IZR i) <= gval (IZR (i + 1)) - numeric_epsilon) ->
    gfirst <= v < glast - numeric_epsilon ->
    exists i, et_index tab v = Ok i /\ (0 <= i <= Z.of_nat n - 2)%Z /\
              gval (IZR i) - numeric_epsilon <= v < gval (IZR (i + 1)) - numeric_epsilon.
  Proof.
    intros W H. destruct (index_inside_cases v H) as (i & E & B & C).
    exists i. split; auto. split; auto. pose proof (W i B). pose proof eps_pos. lra.
  Qed.
End Grid.
