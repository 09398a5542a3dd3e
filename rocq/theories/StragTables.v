(** * Signs of the straggling factors of generated_LS_coeff.h *)
From Coq Require Import ZArith QArith Reals Qreals List Bool Lra Lia.
From Verif Require Import Num NumR DataLSXa DataLSXahi SpecData DataProofs.
Import ListNotations.
Local Open Scope R_scope.

(** ** The two tables *)
Definition xa (z i : nat) : dec := nth i (nth z ls_X_coefficients_a []) 0%dec.
Definition xh (z i : nat) : dec := nth i (nth z ls_X_coefficients_ahi []) 0%dec.
(** the straggling factor at grid point i for a nucleus whose mass differs from the tabulated one by
    t times 5 per cent *)
Definition xr (t : R) (z i : nat) : R := Rlit (xa z i) + t * (Rlit (xh z i) - Rlit (xa z i)).

(** *** The check, on integers: every entry times 10^12 *)
Definition sc (d : dec) : Z := (dec_mant d * 10 ^ (dec_exp d + 12))%Z.
Definition fine (d : dec) : bool := (-12 <=? dec_exp d)%Z.
Lemma IZR_pow10 e : (0 <= e)%Z -> IZR (10 ^ e) = 10 ^ Z.to_nat e.
Proof. intros H. rewrite pow_IZR, Z2Nat.id by exact H. reflexivity. Qed.
Lemma sc_R d : fine d = true -> IZR (sc d) = 10 ^ 12 * Rlit d.
Proof.
  destruct d as [m e]. unfold fine, sc. cbn [dec_mant dec_exp]. intros H. apply Z.leb_le in H. rewrite mult_IZR.
  unfold Rlit. destruct e as [|p|p].
  - replace (0 + 12)%Z with 12%Z by lia. rewrite mult_IZR, !IZR_pow10 by lia. change (Z.to_nat 12) with 12%nat. change (Z.to_nat 0) with 0%nat. ring.
  - rewrite mult_IZR, !IZR_pow10 by lia. replace (Z.to_nat (Z.pos p + 12)) with (12 + Z.to_nat (Z.pos p))%nat by lia. rewrite pow_add. ring.
  - rewrite !IZR_pow10 by lia. assert (E : (10 ^ 12 = 10 ^ Z.to_nat (Z.neg p + 12) * 10 ^ Z.to_nat (Z.pos p))%R) by (rewrite <- pow_add; f_equal; lia).
    rewrite E. field. apply pow_nonzero. lra.
Qed.
(** numbers proportional to the factors at t = -20 and at t = 32 *)
Definition at_low (a h : dec) : Z := (21 * sc a - 20 * sc h)%Z.
Definition at_high (a h : dec) : Z := (32 * sc h - 31 * sc a)%Z.
Fixpoint x_steps (n : nat) (pl ph : Z) (ra rh : list dec) : bool :=
  match n, ra, rh with
  | O, _, _ => true
  | S n', a :: ra', h :: rh' =>
      let l := at_low a h in let u := at_high a h in
      fine a && fine h && (0 <? l)%Z && (l <=? 2 * pl)%Z && (0 <? u)%Z && (u <=? 2 * ph)%Z && x_steps n' l u ra' rh'
  | _, _, _ => false
  end.
Definition x_row (rows : list dec * list dec) : bool :=
  match rows with
  | (a :: ra, h :: rh) => fine a && fine h && (0 <? at_low a h)%Z && (0 <? at_high a h)%Z && x_steps 161 (at_low a h) (at_high a h) ra rh
  | _ => false
  end.
Definition x_tables : list (list dec * list dec) := combine ls_X_coefficients_a ls_X_coefficients_ahi.
Lemma x_checked : forallb x_row x_tables = true.
Proof. vm_compute. reflexivity. Qed.
Definition x_nonneg (row : list dec) : bool := forallb (fun d => (0 <=? dec_mant d)%Z) row.
Lemma x_signs : forallb x_nonneg ls_X_coefficients_a && forallb x_nonneg ls_X_coefficients_ahi = true.
Proof. vm_compute. reflexivity. Qed.
Lemma x_rows : length ls_X_coefficients_a = 108%nat /\ length ls_X_coefficients_ahi = 108%nat.
Proof. split; vm_compute; reflexivity. Qed.

(** *** .. and on the reals *)
Definition ratio_ok (a h a' h' : dec) : Prop :=
  forall t, (t = -20 \/ t = 32) ->
    0 < Rlit a + t * (Rlit h - Rlit a) /\
    0 < Rlit a' + t * (Rlit h' - Rlit a') <= 2 * (Rlit a + t * (Rlit h - Rlit a)).
Lemma scaled a h : fine a = true -> fine h = true ->
  IZR (at_low a h) = 10 ^ 12 * (Rlit a + (-20) * (Rlit h - Rlit a)) /\ IZR (at_high a h) = 10 ^ 12 * (Rlit a + 32 * (Rlit h - Rlit a)).
Proof. intros A H. unfold at_low, at_high. rewrite !minus_IZR, !mult_IZR, !sc_R by assumption. split; ring. Qed.
Lemma x_steps_ok n : forall a h ra rh, fine a = true -> fine h = true -> (0 < at_low a h)%Z -> (0 < at_high a h)%Z ->
  x_steps n (at_low a h) (at_high a h) ra rh = true -> forall i, (i < n)%nat ->
  ratio_ok (nth i (a :: ra) 0%dec) (nth i (h :: rh) 0%dec) (nth (S i) (a :: ra) 0%dec) (nth (S i) (h :: rh) 0%dec).
Proof.
  induction n as [|n IH]; intros a h ra rh FA FH PA PH C i I; [lia|].
  destruct ra as [|a' ra], rh as [|h' rh]; try discriminate C. cbn [x_steps] in C. cbv zeta in C. rewrite !andb_true_iff in C.
  destruct C as [[[[[[F1 F2] L1] L2] U1] U2] C]. apply Z.ltb_lt in L1, U1. apply Z.leb_le in L2, U2.
  destruct i as [|i].
  - cbn [nth]. destruct (scaled a h FA FH) as [E1 E2], (scaled a' h' F1 F2) as [E3 E4].
    apply IZR_lt in PA, PH, L1, U1. apply IZR_le in L2, U2. rewrite !mult_IZR in L2, U2. rewrite E1, E3 in *. rewrite E2, E4 in *.
    assert (P : 0 < 10 ^ 12) by (apply pow_lt; lra). intros t [-> | ->]; (split; [|split]); apply Rmult_lt_reg_l with (10 ^ 12) || apply Rmult_le_reg_l with (10 ^ 12); lra.
  - specialize (IH a' h' ra rh F1 F2 L1 U1 C i ltac:(lia)). exact IH.
Qed.
Lemma x_ends z i : (z < 108)%nat -> (i < 161)%nat -> ratio_ok (xa z i) (xh z i) (xa z (S i)) (xh z (S i)).
Proof.
  intros Z I. unfold xa, xh. destruct x_rows as [LA LH]. pose proof x_checked as C. rewrite forallb_forall in C.
  assert (IN : In (nth z ls_X_coefficients_a [], nth z ls_X_coefficients_ahi []) x_tables).
  { unfold x_tables. rewrite <- combine_nth by congruence. apply nth_In. rewrite combine_length, LA, LH. exact Z. }
  apply C in IN. clear C. destruct (nth z ls_X_coefficients_a []) as [|a ra]; [discriminate|].
  destruct (nth z ls_X_coefficients_ahi []) as [|h rh]; [discriminate|]. unfold x_row in IN. rewrite !andb_true_iff in IN.
  destruct IN as [[[[F1 F2] P1] P2] ST]. apply Z.ltb_lt in P1, P2. exact (x_steps_ok 161 a h ra rh F1 F2 P1 P2 ST i I).
Qed.
Lemma xr_affine t z i : -20 <= t <= 32 -> xr t z i = (32 - t) / 52 * xr (-20) z i + (t + 20) / 52 * xr 32 z i.
Proof. intros H. unfold xr. field. Qed.
Lemma x_low t z i : -20 <= t <= 32 -> (z < 108)%nat -> (i < 161)%nat -> 0 < xr t z i /\ 0 < xr t z (S i) <= 2 * xr t z i.
Proof.
  intros T Z I. pose proof (x_ends z i Z I) as C. pose proof (C (-20) (or_introl eq_refl)) as C1. pose proof (C 32 (or_intror eq_refl)) as C2.
  change (0 < xr (-20) z i /\ 0 < xr (-20) z (S i) <= 2 * xr (-20) z i) in C1. change (0 < xr 32 z i /\ 0 < xr 32 z (S i) <= 2 * xr 32 z i) in C2.
  rewrite !(xr_affine t) by exact T. destruct C1 as [C1 [F1 D1]], C2 as [C2 [F2 D2]].
  set (a := (32 - t) / 52). set (b := (t + 20) / 52). assert (A : 0 <= a) by (unfold a; lra). assert (B : 0 <= b) by (unfold b; lra).
  assert (AB : a + b = 1) by (unfold a, b; field). split; [destruct (Rle_lt_dec a 0); nra|]. split; [destruct (Rle_lt_dec a 0); nra|nra].
Qed.
Lemma x_any t z i : 0 <= t <= 1 -> (z < 108)%nat -> (i < 200)%nat -> 0 <= xr t z i.
Proof.
  intros T Z I.
  assert (P : forall d, (0 <= dec_mant d)%Z -> 0 <= Rlit d).
  { intros d D. destruct (Z.eq_dec (dec_mant d) 0) as [E|E].
    - rewrite Rlit_Q. destruct d as [m e]. cbn in E. subst m. unfold dec_Q. destruct e; unfold Q2R; simpl; lra.
    - left. apply Rlit_pos. apply Z.ltb_lt. lia. }
  assert (Q : forall l, forallb x_nonneg l = true -> 0 <= Rlit (nth i (nth z l []) 0%dec)).
  { intros l C. apply P. destruct (nth_in_or_default z l []) as [IN | ->]; [|destruct i; cbn; lia].
    rewrite forallb_forall in C. apply C in IN. unfold x_nonneg in IN. rewrite forallb_forall in IN.
    destruct (nth_in_or_default i (nth z l []) 0%dec) as [IN2 | ->]; [apply Z.leb_le; exact (IN _ IN2)|cbn; lia]. }
  pose proof x_signs as C. apply andb_true_iff in C. destruct C as [C1 C2]. apply Q in C1, C2.
  unfold xr. change (0 <= Rlit (xa z i)) in C1. change (0 <= Rlit (xh z i)) in C2. nra.
Qed.
