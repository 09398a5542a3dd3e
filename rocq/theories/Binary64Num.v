(** * Rounding errors of binary64: literals, conversions and libm *)
From Flocq Require Import Core BinarySingleNaN PrimFloat.
From Coq Require Import ZArith Reals Floats SpecFloat Bool Lia Lra.
From Verif Require Import Binary64 Num NumR NumF LnBounds.
Local Open Scope R_scope.

Lemma F_of_Z_val z : (Z.abs z <= 2 ^ 53)%Z -> fin (F_of_Z z) /\ val (F_of_Z z) = IZR z.
Proof.
  intros H. assert (E : F_of_Z z = B2Prim (BinarySingleNaN.binary_normalize 53 1024 eq_refl eq_refl mode_NE z 0 false)).
  { unfold F_of_Z, B2Prim. f_equal. symmetry. exact (eq_sym (binary_normalize_equiv z 0 false)). }
  unfold fin, val. rewrite E, Prim2B_B2Prim.
  pose proof (binary_normalize_correct 53 1024 eq_refl eq_refl mode_NE z 0 false) as C. cbv zeta in C.
  replace (F2R {| Fnum := z; Fexp := 0 |}) with (IZR z) in C by (unfold F2R; cbn [Fnum Fexp bpow]; ring).
  assert (FZ : generic_format radix2 (FLT_exp (-1074) 53) (IZR z)).
  { apply generic_format_FLT. destruct (Z.eq_dec (Z.abs z) (2 ^ 53)) as [Q|Q].
    - assert (Z2 : z = (2 ^ 53)%Z \/ z = (- 2 ^ 53)%Z) by lia.
      destruct Z2 as [-> | ->]; [exists (Float radix2 1 53)|exists (Float radix2 (-1) 53)]; try (cbn; lia); unfold F2R; cbn [Fnum Fexp bpow]; rewrite <- ?mult_IZR; reflexivity.
    - exists (Float radix2 z 0); [unfold F2R; cbn [Fnum Fexp bpow]; ring|cbn [Fnum]; change (radix2 ^ 53)%Z with (2 ^ 53)%Z; lia|cbn [Fexp]; lia]. }
  assert (G : round radix2 (SpecFloat.fexp 53 1024) (round_mode mode_NE) (IZR z) = IZR z).
  { apply round_generic; [apply valid_rnd_round_mode|exact FZ]. }
  rewrite G in C. assert (L : Rlt_bool (Rabs (IZR z)) (bpow radix2 1024) = true).
  { apply Rlt_bool_true. rewrite <- abs_IZR. apply Rle_lt_trans with (bpow radix2 53); [|apply bpow_lt; lia]. 
    change (bpow radix2 53) with (IZR (2 ^ 53)). now apply IZR_le. }
  rewrite L in C. destruct C as (A & B & _). split; [exact B|exact A].
Qed.

Lemma F_floor_Z_val x : fin x -> F_floor_Z x = Some (Zfloor (val x)).
Proof.
  intros H. unfold F_floor_Z. rewrite val_SF. destruct (SF_fin x H) as [(s & E)|(s & m & e & E)]; rewrite E; cbn [SFR].
  - f_equal. symmetry. apply Zfloor_IZR.
  - f_equal. set (z := if s then Zneg m else Zpos m). symmetry. destruct (Z.ltb_spec e 0), (Z.leb_spec 0 e); try lia.
    + assert (P : (0 < 2 ^ (- e))%Z) by (apply Z.pow_pos_nonneg; lia). apply Zfloor_imp.
      assert (PR : 0 < IZR (2 ^ (- e))) by now apply IZR_lt.
      pose proof (Z.div_mod z (2 ^ (- e)) ltac:(lia)) as D. pose proof (Z.mod_pos_bound z (2 ^ (- e)) P) as M.
      set (q := (z / 2 ^ (- e))%Z) in *. set (d := (2 ^ (- e))%Z) in *. set (r := (z mod d)%Z) in *.
      assert (ZR : IZR z = IZR d * IZR q + IZR r) by (rewrite <- mult_IZR, <- plus_IZR; now f_equal).
      assert (R0 : 0 <= IZR r < IZR d) by (split; [apply IZR_le; lia|apply IZR_lt; lia]).
      rewrite plus_IZR, ZR. split.
      * apply Rmult_le_reg_r with (IZR d); [exact PR|]. replace ((IZR d * IZR q + IZR r) * / IZR d * IZR d) with (IZR d * IZR q + IZR r) by (field; lra). nra.
      * apply Rmult_lt_reg_r with (IZR d); [exact PR|]. replace ((IZR d * IZR q + IZR r) * / IZR d * IZR d) with (IZR d * IZR q + IZR r) by (field; lra). nra.
    + rewrite <- mult_IZR. apply Zfloor_IZR.
Qed.
Lemma F_trunc_Z_val x z : fin x -> val x = IZR z -> F_trunc_Z x = Some z.
Proof.
  intros H. unfold F_trunc_Z. rewrite val_SF. destruct (SF_fin x H) as [(s & E)|(s & m & e & E)]; rewrite E; cbn [SFR].
  - intros Q. f_equal. apply eq_IZR. exact Q.
  - intros Q. f_equal. destruct (Z.ltb_spec e 0), (Z.leb_spec 0 e); try lia.
    + assert (P : (0 < 2 ^ (- e))%Z) by (apply Z.pow_pos_nonneg; lia). assert (PR : 0 < IZR (2 ^ (- e))) by now apply IZR_lt.
      assert (M : (if s then Zneg m else Zpos m) = (z * 2 ^ (- e))%Z).
      { apply eq_IZR. rewrite mult_IZR, <- Q. field. lra. }
      destruct s.
      * assert (M2 : Zpos m = ((- z) * 2 ^ (- e))%Z) by lia. rewrite M2, Z.div_mul by lia. lia.
      * rewrite M, Z.div_mul by lia. reflexivity.
    + rewrite <- mult_IZR in Q. apply eq_IZR in Q. destruct s; lia.
Qed.

(** floor followed by the conversion to int *)
Lemma F_floor_int x : fin x -> (-2147483648 <= Zfloor (val x) <= 2147483647)%Z -> F_to_int (F_floor x) = Some (Zfloor (val x)).
Proof.
  intros H I. set (z := Zfloor (val x)) in *. destruct (F_of_Z_val z ltac:(lia)) as [F V].
  assert (IR : int_range z = Some z).
  { unfold int_range. destruct (Z.leb_spec (-2147483648) z), (Z.leb_spec z 2147483647); try lia. reflexivity. }
  unfold F_floor. pose proof (F_floor_Z_val x H) as Z1. fold z in Z1.
  destruct (SF_fin x H) as [(s & E)|(s & m & e & E)]; rewrite E.
  - unfold F_to_int, F_trunc_Z. rewrite E. unfold F_floor_Z in Z1. rewrite E in Z1. injection Z1 as <-. reflexivity.
  - rewrite Z1. unfold F_to_int. rewrite (F_trunc_Z_val _ z F V). exact IR.
Qed.

(** ** libm: within four units of the last place *)
Definition exp_accurate (lm : Libm) : Prop := forall x, fin x -> -700 <= val x <= 700 ->
  fin (lm_exp lm x) /\ Rabs (val (lm_exp lm x) - exp (val x)) <= 4 * (2 * u) * exp (val x).
Definition log_accurate (lm : Libm) : Prop := forall x, fin x -> 0 < val x ->
  fin (lm_log lm x) /\ Rabs (val (lm_log lm x) - ln (val x)) <= 4 * (2 * u) * Rabs (ln (val x)) + tiny.
Definition accurate (lm : Libm) : Prop := exp_accurate lm /\ log_accurate lm.

(** such a library exists: the one that rounds correctly *)
Definition F_of_R (r : R) : float :=
  B2Prim (BinarySingleNaN.binary_normalize 53 1024 eq_refl eq_refl mode_NE (ZnearestE (scaled_mantissa radix2 (FLT_exp (-1074) 53) r)) (cexp radix2 (FLT_exp (-1074) 53) r) false).
Definition rounded_libm : Libm :=
  Build_Libm (fun x => F_of_R (exp (val x))) (fun x => F_of_R (ln (val x))) (fun x => F_of_R (ln (1 + val x))) (fun x => F_of_R (ln (val x) / ln 10)) (fun x y => F_of_R (Rpower (val x) (val y))).

Lemma F_of_R_val r : Rabs r <= big -> fin (F_of_R r) /\ val (F_of_R r) = rnd r.
Proof.
  intros H. unfold fin, val, F_of_R. rewrite Prim2B_B2Prim.
  pose proof (binary_normalize_correct 53 1024 eq_refl eq_refl mode_NE (ZnearestE (scaled_mantissa radix2 (FLT_exp (-1074) 53) r)) (cexp radix2 (FLT_exp (-1074) 53) r) false) as C. cbv zeta in C.
  change (F2R {| Fnum := ZnearestE (scaled_mantissa radix2 (FLT_exp (-1074) 53) r); Fexp := cexp radix2 (FLT_exp (-1074) 53) r |}) with (rnd r) in C.
  assert (G : round radix2 (SpecFloat.fexp 53 1024) (round_mode mode_NE) (rnd r) = rnd r).
  { apply round_generic; [apply valid_rnd_round_mode|]. apply generic_format_round; [exact (@FLT_exp_valid (-1074) 53 eq_refl)|apply valid_rnd_N]. }
  rewrite G in C. rewrite (rnd_small r H) in C. destruct C as (A & B & _). split; [exact B|exact A].
Qed.

Lemma ln2_bounds : 6931 / 10000 < ln 2 < 6932 / 10000.
Proof.
  destruct (ln_int 2 1) as [[l h]|] eqn:E; [|vm_compute in E; discriminate]. pose proof (ln_int_ok 2 1 l h E) as (_ & _ & L & U).
  vm_compute in E. injection E as <- <-. unfold SC in L, U. change (2 ^ 50)%Z with 1125899906842624%Z in L, U. replace (2 / 1) with 2 in L, U by lra. lra.
Qed.
Lemma ln_le a b : 0 < a -> a <= b -> ln a <= ln b.
Proof. intros P [L| ->]; [left; now apply ln_increasing|lra]. Qed.
Lemma rounded_accurate : accurate rounded_libm.
Proof.
  pose proof ln2_bounds as L2. split; intros x X B; cbn [lm_exp lm_log rounded_libm].
  - assert (E1 : exp (val x) <= big). { unfold big. rewrite bpow_exp. change (IZR radix2) with 2. apply exp_le. lra. }
    assert (E2 : small <= exp (val x)). { unfold small. rewrite bpow_exp. change (IZR radix2) with 2. apply exp_le. lra. }
    pose proof (exp_pos (val x)) as P. assert (AB : Rabs (exp (val x)) = exp (val x)) by (apply Rabs_pos_eq; lra).
    destruct (F_of_R_val (exp (val x))) as [F V]; [rewrite AB; exact E1|]. split; [exact F|]. rewrite V.
    pose proof (rnd_relative (exp (val x)) ltac:(rewrite AB; exact E2)) as Q. rewrite AB in Q. pose proof u_pos. nra.
  - assert (B1 : ln (val x) <= 1024).
    { assert (Q : val x < bpow radix2 1024). { pose proof (abs_B2R_lt_emax 53 1024 (Prim2B x)) as Q. change (Rabs (val x) < bpow radix2 1024) in Q. rewrite Rabs_pos_eq in Q by lra. exact Q. }
      rewrite bpow_exp in Q. change (IZR radix2) with 2 in Q. apply Rlt_le in Q. apply (ln_le _ _ B) in Q. rewrite ln_exp in Q. lra. }
    assert (B2 : -1024 <= ln (val x)).
    { assert (Q : bpow radix2 (-1074) <= val x).
      { assert (ST : is_finite_strict (Prim2B x) = true).
        { unfold fin, val in *. destruct (Prim2B x) as [s|s| |s m e H]; try discriminate; [cbn in B; lra|reflexivity]. }
        pose proof (abs_B2R_ge_emin 53 1024 (Prim2B x) ST) as Q. change (bpow radix2 (-1074) <= Rabs (val x)) in Q. rewrite Rabs_pos_eq in Q by lra. exact Q. }
      rewrite bpow_exp in Q. change (IZR radix2) with 2 in Q. apply ln_le in Q; [|apply exp_pos]. rewrite ln_exp in Q. lra. }
    assert (AB : Rabs (ln (val x)) <= 1024) by (apply Rabs_le; lra). pose proof big_ge as BG.
    destruct (F_of_R_val (ln (val x))) as [F V]; [lra|]. split; [exact F|]. rewrite V.
    pose proof (rnd_error (ln (val x))) as Q. pose proof u_pos. pose proof (Rabs_pos (ln (val x))). nra.
Qed.
