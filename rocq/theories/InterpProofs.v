(** * Linear interpolation in the coefficient tables (support for C25, C38) *)
From Coq Require Import ZArith Reals List Bool Lra Lia.
From Verif Require Import Num NumR Structures EnergyTable GridProofs.
Import ListNotations.
Local Open Scope R_scope.

Section Interp.
  Variables (n : nat) (lmin lmax : R).
  Hypothesis n2 : (2 <= n)%nat.
  Hypothesis nmax : (Z.of_nat n < 2147483648)%Z.
  Hypothesis lim : lmin < lmax.
  Notation tab := (et_make n lmin lmax).
  Notation gval := (gval n lmin lmax).
  Notation gfirst := (gfirst n lmin lmax).
  Notation glast := (glast n lmin lmax).
  Variable y : Z -> outcome R.

  Lemma interp_start x :
    et_interpolate tab x y =
    (if Rltb x gfirst || Rltb glast x then Ok (Rlit 0.0)
     else if Reqb x glast then y (Z.of_nat n - 1)%Z
     else
       i <- et_index tab x ;;
       xi1 <- aget (et_values tab) (i + 1) ;;
       xi <- aget (et_values tab) i ;;
       if Reqb (xi1 - xi) (Rlit 0.0) then Ok xi
       else
         let l := Rlit 1.0 - (x - xi) / (xi1 - xi) in
         yi <- y i ;;
         yi1 <- y (i + 1)%Z ;;
         Ok (l * yi + (Rlit 1 - l) * yi1)).
  Proof.
    unfold et_interpolate. rewrite et_n_R.
    rewrite et_aget by lia. cbn [bind]. rewrite et_aget by lia. cbn [bind].
    rewrite <- glast_IZR. reflexivity.
  Qed.

  (** outside the table the value is 0, not the value at the limit *)
  Lemma interp_outside x : x < gfirst \/ glast < x -> et_interpolate tab x y = Ok 0.
  Proof.
    intros H. rewrite interp_start. dec_norm.
    destruct (Rltb_spec x gfirst), (Rltb_spec glast x); cbn [orb]; try (f_equal; lra); lra.
  Qed.

  Lemma interp_last : et_interpolate tab glast y = y (Z.of_nat n - 1)%Z.
  Proof.
    rewrite interp_start. pose proof (gfirst_lt_glast n lmin lmax n2 lim).
    destruct (Rltb_spec glast gfirst), (Rltb_spec glast glast); cbn [orb]; try lra.
    destruct (Reqb_spec glast glast); [reflexivity|congruence].
  Qed.

  (** the gap: just below the last grid value the lookup already answers n-1 *)
  Lemma interp_gap x : glast - numeric_epsilon <= x < glast -> gfirst <= x ->
    et_interpolate tab x y = UB OutOfBounds.
  Proof.
    intros H H0. rewrite interp_start.
    destruct (Rltb_spec x gfirst), (Rltb_spec glast x); cbn [orb]; try lra.
    destruct (Reqb_spec x glast); [lra|].
    rewrite index_above by (auto; lra). cbn [bind].
    rewrite aget_UB; [reflexivity|]. rewrite et_values_length by auto. lia.
  Qed.

  Lemma interp_inside x : gfirst <= x < glast - numeric_epsilon ->
    exists i, (0 <= i <= Z.of_nat n - 2)%Z /\
      gval (IZR i) - numeric_epsilon <= x < gval (IZR (i + 1)) /\
      et_interpolate tab x y =
      (yi <- y i ;; yi1 <- y (i + 1)%Z ;;
       Ok (yi + (yi1 - yi) * ((x - gval (IZR i)) / (gval (IZR (i + 1)) - gval (IZR i))))).
  Proof.
    intros H. pose proof eps_pos.
    destruct (index_inside n lmin lmax n2 nmax lim x H) as (i & E & B & L).
    exists i. split; auto. split; auto. rewrite interp_start.
    destruct (Rltb_spec x gfirst), (Rltb_spec glast x); cbn [orb]; try lra.
    destruct (Reqb_spec x glast); [lra|]. rewrite E. cbn [bind].
    rewrite et_aget by lia. cbn [bind]. rewrite et_aget by lia. cbn [bind]. dec_norm.
    assert (G : gval (IZR i) < gval (IZR (i + 1))) by (apply gval_lt; auto; rewrite plus_IZR; lra).
    destruct (Reqb_spec (gval (IZR (i + 1)) - gval (IZR i)) (0 / 10)); [lra|].
    destruct (y i) as [yi|]; cbn [bind]; [|reflexivity].
    destruct (y (i + 1)%Z) as [yi1|]; cbn [bind]; [|reflexivity].
    f_equal. field. lra.
  Qed.

  Lemma interp_total x : (forall i, (0 <= i < Z.of_nat n)%Z -> exists v, y i = Ok v) ->
    ~ (glast - numeric_epsilon <= x < glast) -> exists v, et_interpolate tab x y = Ok v.
  Proof.
    intros Y G. destruct (Rlt_le_dec x gfirst).
    { exists 0. apply interp_outside. auto. }
    destruct (Rlt_le_dec glast x).
    { exists 0. apply interp_outside. auto. }
    destruct (Req_dec x glast) as [->|NE].
    { rewrite interp_last. apply Y. lia. }
    destruct (interp_inside x) as (i & B & _ & ->); [lra|].
    destruct (Y i) as [v1 ->]; [lia|]. destruct (Y (i + 1)%Z) as [v2 ->]; [lia|]. cbn [bind]. eauto.
  Qed.

  (** between neighbours *)
  Lemma interp_between x (yv : Z -> R) :
    (forall i, (0 <= i < Z.of_nat n)%Z -> y i = Ok (yv i)) ->
    gfirst <= x < glast - numeric_epsilon ->
    exists i l, (0 <= i <= Z.of_nat n - 2)%Z /\
      x = gval (IZR i) + l * (gval (IZR (i + 1)) - gval (IZR i)) /\
      - (numeric_epsilon / (gval (IZR (i + 1)) - gval (IZR i))) <= l < 1 /\
      et_interpolate tab x y = Ok ((1 - l) * yv i + l * yv (i + 1)%Z).
  Proof.
    intros Y H. destruct (interp_inside x H) as (i & B & [L1 L2] & E).
    assert (G : gval (IZR i) < gval (IZR (i + 1))) by (apply gval_lt; auto; rewrite plus_IZR; lra).
    exists i, ((x - gval (IZR i)) / (gval (IZR (i + 1)) - gval (IZR i))).
    rewrite (Y i), (Y (i + 1)%Z) in E by lia. cbn [bind] in E. rewrite E.
    split; auto. split; [field; lra|]. split; [|f_equal; ring].
    set (h := gval (IZR (i + 1)) - gval (IZR i)) in *. assert (0 < h) by (unfold h; lra).
    split.
    - apply Rmult_le_reg_r with h; auto. unfold Rdiv. rewrite Ropp_mult_distr_l, !Rmult_assoc, Rinv_l by lra. lra.
    - apply Rmult_lt_reg_r with h; auto. unfold Rdiv. rewrite Rmult_assoc, Rinv_l by lra. unfold h. lra.
  Qed.

  (** at a grid point it is the table entry *)
  Lemma interp_knot k (yv : Z -> R) :
    (forall i, (0 <= i <= Z.of_nat n - 2)%Z -> gval (IZR i) < gval (IZR (i + 1)) - numeric_epsilon) ->
    (forall i, (0 <= i < Z.of_nat n)%Z -> y i = Ok (yv i)) ->
    (0 <= k < Z.of_nat n)%Z ->
    et_interpolate tab (gval (IZR k)) y = Ok (yv k).
  Proof.
    intros W Y K. destruct (Z.eq_dec k (Z.of_nat n - 1)) as [->|NE].
    - rewrite <- glast_IZR, interp_last. apply Y. lia.
    - assert (M : forall j, (0 <= j <= Z.of_nat n - 2)%Z -> gval (IZR j) < glast - numeric_epsilon).
      { intros j J. pose proof (W j J). rewrite glast_IZR.
        assert (gval (IZR (j + 1)) <= gval (IZR (Z.of_nat n - 1))).
        { apply gval_le; auto. apply IZR_le. lia. } lra. }
      destruct (index_inside_sharp n lmin lmax n2 nmax lim (gval (IZR k))) as (i & E & B & L1 & L2).
      { intros i Hi. left. auto. }
      { split; [|apply M; lia]. unfold gfirst. apply gval_le; auto. apply IZR_le. lia. }
      assert (i = k).
      { destruct (Z.lt_total i k) as [Q|[Q|Q]]; auto; exfalso.
        - assert (gval (IZR (i + 1)) <= gval (IZR k)) by (apply gval_le; auto; apply IZR_le; lia).
          pose proof eps_pos. lra.
        - pose proof (W k ltac:(lia)).
          assert (gval (IZR (k + 1)) <= gval (IZR i)) by (apply gval_le; auto; apply IZR_le; lia). lra. }
      subst i. pose proof (M k ltac:(lia)) as MK. pose proof eps_pos.
      rewrite interp_start.
      destruct (Rltb_spec (gval (IZR k)) gfirst).
      { assert (gfirst <= gval (IZR k)) by (apply gval_le; auto; apply IZR_le; lia). lra. }
      destruct (Rltb_spec glast (gval (IZR k))); cbn [orb]; try lra.
      destruct (Reqb_spec (gval (IZR k)) glast); [lra|]. rewrite E. cbn [bind].
      rewrite et_aget by lia. cbn [bind]. rewrite et_aget by lia. cbn [bind]. dec_norm.
      pose proof (W k ltac:(lia)).
      destruct (Reqb_spec (gval (IZR (k + 1)) - gval (IZR k)) (0 / 10)); [lra|].
      rewrite (Y k), (Y (k + 1)%Z) by lia. cbn [bind]. f_equal. field. lra.
  Qed.
End Interp.
