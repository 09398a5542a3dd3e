(** * Bounds for the Bethe formula: logarithm, shell correction, density effect, Lindhard-Sorensen term *)
From Coq Require Import ZArith QArith Reals Qreals List Bool Lra Lia.
From Verif Require Import Num NumR Structures DataElements DataLSa DataLSahi EnergyTable Calculations SpecData DataProofs GridProofs InterpProofs
  BoundsProofs StragTables PropGrid PropKin PropSrim PropCorr PropStrag.
Import ListNotations.
Local Open Scope R_scope.

(** ** Numbers *)
Lemma exp_twice x : exp (2 * x) = exp x * exp x.
Proof. rewrite <- exp_plus. f_equal. ring. Qed.
Lemma exp_up a b x : exp x <= a -> a * a <= b -> exp (2 * x) <= b.
Proof. intros A B. rewrite exp_twice. pose proof (exp_pos x). nra. Qed.
Lemma exp_down a b x : 0 <= a -> a <= exp x -> b <= a * a -> b <= exp (2 * x).
Proof. intros P A B. rewrite exp_twice. nra. Qed.
Lemma exp_small y : 0 <= y < 1 -> exp y <= 1 / (1 - y).
Proof.
  intros Y. pose proof (exp_ineq1_le (- y)) as H. rewrite exp_Ropp in H. pose proof (exp_pos y) as P.
  apply Rmult_le_reg_r with (1 - y); [lra|]. replace (1 / (1 - y) * (1 - y)) with 1 by (field; lra).
  apply Rle_trans with (exp y * / exp y); [apply Rmult_le_compat_l; lra|rewrite Rinv_r; lra].
Qed.

Lemma exp_29 : exp (29 / 10) <= 1835 / 100.
Proof.
  assert (E := exp_small (29 / 10240) ltac:(lra)). assert (E0 : exp (29 / 10240) <= 10028401 / 10000000) by lra. clear E.
  apply exp_up with (b := 10056884 / 10000000) in E0; [|lra].
  apply exp_up with (b := 10114093 / 10000000) in E0; [|lra].
  apply exp_up with (b := 10229489 / 10000000) in E0; [|lra].
  apply exp_up with (b := 10464246 / 10000000) in E0; [|lra].
  apply exp_up with (b := 10950046 / 10000000) in E0; [|lra].
  apply exp_up with (b := 11990352 / 10000000) in E0; [|lra].
  apply exp_up with (b := 14376856 / 10000000) in E0; [|lra].
  apply exp_up with (b := 20669401 / 10000000) in E0; [|lra].
  apply exp_up with (b := 42722416 / 10000000) in E0; [|lra].
  apply exp_up with (b := 182520490 / 10000000) in E0; [|lra].
  match type of E0 with exp ?x <= _ => replace x with (29 / 10) in E0 by lra end. lra.
Qed.
Lemma exp_node28 : exp (22684 / 10000) <= 97 / 10.
Proof.
  assert (E := exp_small (22684 / 10000 / 1024) ltac:(lra)). assert (E0 : exp (22684 / 10000 / 1024) <= 10022203 / 10000000) by lra. clear E.
  apply exp_up with (b := 10044456 / 10000000) in E0; [|lra].
  apply exp_up with (b := 10089110 / 10000000) in E0; [|lra].
  apply exp_up with (b := 10179015 / 10000000) in E0; [|lra].
  apply exp_up with (b := 10361235 / 10000000) in E0; [|lra].
  apply exp_up with (b := 10735520 / 10000000) in E0; [|lra].
  apply exp_up with (b := 11525139 / 10000000) in E0; [|lra].
  apply exp_up with (b := 13282883 / 10000000) in E0; [|lra].
  apply exp_up with (b := 17643499 / 10000000) in E0; [|lra].
  apply exp_up with (b := 31129306 / 10000000) in E0; [|lra].
  apply exp_up with (b := 96903370 / 10000000) in E0; [|lra].
  match type of E0 with exp ?x <= _ => replace x with (22684 / 10000) in E0 by lra end. lra.
Qed.

Lemma exp_node139 : 60000 <= exp (112 / 10).
Proof.
  assert (E := exp_ineq1_le (112 / 10 / 1024)). assert (E0 : 10109374 / 10000000 <= exp (112 / 10 / 1024)) by lra. clear E.
  apply exp_down with (b := 10219944 / 10000000) in E0; [|lra|lra].
  apply exp_down with (b := 10444725 / 10000000) in E0; [|lra|lra].
  apply exp_down with (b := 10909228 / 10000000) in E0; [|lra|lra].
  apply exp_down with (b := 11901125 / 10000000) in E0; [|lra|lra].
  apply exp_down with (b := 14163677 / 10000000) in E0; [|lra|lra].
  apply exp_down with (b := 20060974 / 10000000) in E0; [|lra|lra].
  apply exp_down with (b := 40244267 / 10000000) in E0; [|lra|lra].
  apply exp_down with (b := 161960102 / 10000000) in E0; [|lra|lra].
  apply exp_down with (b := 2623107463 / 10000000) in E0; [|lra|lra].
  apply exp_down with (b := 688069276244 / 10000000) in E0; [|lra|lra].
  match type of E0 with _ <= exp ?x => replace x with (112 / 10) in E0 by lra end. lra.
Qed.

Lemma exp_mono x y : x <= y -> exp x <= exp y.
Proof. intros [H|H]; [left; now apply exp_increasing|rewrite H; lra]. Qed.
Lemma node28 : G200 28 < 10.
Proof.
  pose proof exp_node28 as E. unfold gval, gstep. replace (INR 200) with 200 by (rewrite INR_IZR_INZ; reflexivity).
  assert (L : LN10_ (F:=R) <= 23026 / 10000) by (unfold LN10_; numR; dec_norm; lra).
  apply Rle_lt_trans with (97 / 10); [|lra]. eapply Rle_trans; [|exact E]. apply exp_mono. lra.
Qed.
Lemma node139 : 50001 < G200 139.
Proof.
  pose proof exp_node139 as E. unfold gval, gstep. replace (INR 200) with 200 by (rewrite INR_IZR_INZ; reflexivity).
  assert (L : 23 / 10 <= LN10_ (F:=R)) by (unfold LN10_; numR; dec_norm; lra).
  apply Rlt_le_trans with 60000; [lra|]. eapply Rle_trans; [exact E|]. apply exp_mono. lra.
Qed.

(** ** The Lindhard-Sorensen tables *)
Definition la (z i : nat) : dec := nth i (nth z ls_coefficients_a []) 0%dec.
Definition lh (z i : nat) : dec := nth i (nth z ls_coefficients_ahi []) 0%dec.
Definition lr (t : R) (z i : nat) : R := Rlit (la z i) + t * (Rlit (lh z i) - Rlit (la z i)).
Definition between (lo hi v : Z) : bool := ((lo <=? v) && (v <=? hi))%Z.
Definition l_entry (lo : Z) (a h : dec) : bool :=
  fine a && fine h && between lo 1700000000000 (at_low a h) && between lo 1700000000000 (at_high a h).
Definition l_low (i : nat) : Z := if (i <? 140)%nat then -2220000000000 else -5600000000000.
Lemma l_checked : forallb (fun z => forallb (fun i => l_entry (l_low i) (la z i) (lh z i)) (seq 28 172)) (seq 0 108) = true.
Proof. vm_compute. reflexivity. Qed.
Lemma l_entry_R lo a h t : l_entry lo a h = true -> t = -20 \/ t = 32 -> IZR lo <= 1000000000000 * (Rlit a + t * (Rlit h - Rlit a)) <= 1700000000000.
Proof.
  unfold l_entry, between. rewrite !andb_true_iff, !Z.leb_le. intros (((F1 & F2) & L1 & L2) & U1 & U2) T. destruct (scaled _ _ F1 F2) as [E1 E2].
  apply IZR_le in L1, L2, U1, U2. rewrite E1 in L1, L2. rewrite E2 in U1, U2.
  replace (10 ^ 12) with 1000000000000 in * by lra. destruct T as [-> | ->]; lra.
Qed.

Lemma l_ends t z i : t = -20 \/ t = 32 -> (z < 108)%nat -> (28 <= i < 200)%nat ->
  (if (i <? 140)%nat then - (222 / 100) else - (56 / 10)) <= lr t z i <= 17 / 10.
Proof.
  intros T Z I. pose proof l_checked as C. rewrite forallb_forall in C. specialize (C z ltac:(apply in_seq; lia)).
  rewrite forallb_forall in C. specialize (C i ltac:(apply in_seq; lia)). apply (l_entry_R _ _ _ t) in C; [|exact T].
  unfold lr. generalize dependent (Rlit (la z i)). intros a. generalize (Rlit (lh z i)). intros h C. unfold l_low in C. destruct (i <? 140)%nat; lra.
Qed.
Lemma lr_affine t z i : lr t z i = (32 - t) / 52 * lr (-20) z i + (t + 20) / 52 * lr 32 z i.
Proof. unfold lr. generalize (Rlit (la z i)) (Rlit (lh z i)). intros a h. field. Qed.
Lemma l_bounds t z i : -20 <= t <= 32 -> (z < 108)%nat -> (28 <= i < 200)%nat ->
  (if (i <? 140)%nat then - (222 / 100) else - (56 / 10)) <= lr t z i <= 17 / 10.
Proof.
  intros T Z I. pose proof (l_ends (-20) z i (or_introl eq_refl) Z I) as A. pose proof (l_ends 32 z i (or_intror eq_refl) Z I) as B.
  rewrite lr_affine. destruct (i <? 140)%nat; nra.
Qed.

Lemma L_unfold p : proj_Z_ok p -> 1 <= pT p ->
  precalculated_lindhard (F:=R) p =
  (v1 <- ls_lookup ls_coefficients_a (Rfloor_Z (pZ p) - 1) (pT p) ;; v2 <- ls_lookup ls_coefficients_ahi (Rfloor_Z (pZ p) - 1) (pT p) ;;
   Ok (v1 + excess p * (v2 - v1))).
Proof.
  intros Z T. destruct (proj_Z_int p Z) as [E B]. unfold precalculated_lindhard. rewrite E. cbn [cast bind]. cbv zeta.
  replace (Rfloor_Z (pZ p) >? LS_MAX_Z)%Z with false by (symmetry; rewrite Z.gtb_ltb; apply Z.ltb_ge; unfold LS_MAX_Z; lia).
  rewrite ls_e0. cbn [bind]. replace (fltb (pT p) 1) with false by (symmetry; apply Rltb_false; lra).
  destruct (ls_lookup _ _ _) as [v1|]; cbn [bind]; [|reflexivity]. destruct (ls_lookup _ _ _) as [v2|]; cbn [bind]; [|reflexivity].
  f_equal. unfold excess, a_rel_increase. cbv zeta. pose proof (weight_pos (Rfloor_Z (pZ p)) ltac:(lia)). numR. dec_norm. field. lra.
Qed.
Lemma L_inside p : proj_Z_ok p -> 1 <= pT p < ls_glast - numeric_epsilon -> exists i l, (0 <= i <= 198)%Z /\ - (1 / 1000) <= l < 1 /\
  pT p = G200 (IZR i) + l * (G200 (IZR (i + 1)) - G200 (IZR i)) /\ (G200 (IZR i) <= pT p \/ G200 (IZR i) - numeric_epsilon <= pT p < G200 (IZR i)) /\
  precalculated_lindhard (F:=R) p = Ok ((1 - l) * lr (excess p) (Z.to_nat (Rfloor_Z (pZ p) - 1)) (Z.to_nat i) + l * lr (excess p) (Z.to_nat (Rfloor_Z (pZ p) - 1)) (S (Z.to_nat i))).
Proof.
  intros Z T. destruct (proj_Z_int p Z) as [E B]. rewrite (L_unfold p Z) by lra.
  destruct (shared_bracket (pT p) T) as (i & l & I & D & L & C & Y). exists i, l. split; [exact I|]. split; [exact L|]. split; [exact D|]. split; [exact C|].
  destruct ls_a_sizes as [A1 A2], ls_ahi_sizes as [H1 H2].
  destruct (row_of ls_coefficients_a (Rfloor_Z (pZ p) - 1) (pT p) A1 A2 ltac:(lia)) as [-> R1].
  destruct (row_of ls_coefficients_ahi (Rfloor_Z (pZ p) - 1) (pT p) H1 H2 ltac:(lia)) as [-> R2].
  rewrite (Y _ _ R1), (Y _ _ R2). cbn [bind]. f_equal. unfold lr, la, lh. replace (Z.to_nat (i + 1)) with (S (Z.to_nat i)) by lia.
  generalize (Rlit (nth (Z.to_nat i) (nth (Z.to_nat (Rfloor_Z (pZ p) - 1)) ls_coefficients_a []) 0%dec)) (Rlit (nth (Z.to_nat i) (nth (Z.to_nat (Rfloor_Z (pZ p) - 1)) ls_coefficients_ahi []) 0%dec))
    (Rlit (nth (S (Z.to_nat i)) (nth (Z.to_nat (Rfloor_Z (pZ p) - 1)) ls_coefficients_a []) 0%dec)) (Rlit (nth (S (Z.to_nat i)) (nth (Z.to_nat (Rfloor_Z (pZ p) - 1)) ls_coefficients_ahi []) 0%dec)).
  intros a h a1 h1. ring.
Qed.

Lemma excess_range p : isotope p -> -20 <= excess p <= 32.
Proof.
  intros [Z A]. destruct (proj_Z_int p Z) as [_ B]. pose proof (weight_pos (Rfloor_Z (pZ p)) ltac:(lia)) as W.
  unfold excess. cbv zeta. set (w := element_atomic_weight (Rfloor_Z (pZ p))) in *.
  replace ((pA p - w) / w / (1 / 20)) with ((pA p / w - 1) * 20) by (field; lra).
  assert (0 <= pA p / w <= 26 / 10); [|lra]. split; [apply Rmult_le_pos; [lra|left; now apply Rinv_0_lt_compat]|].
  apply Rmult_le_reg_r with w; [exact W|]. unfold Rdiv at 1. rewrite Rmult_assoc, Rinv_l by lra. lra.
Qed.

(** the Lindhard-Sorensen term from 10 MeV/u on *)
Lemma L_bound p : isotope p -> 10 <= pT p -> ls_safe (pT p) ->
  exists L, precalculated_lindhard (F:=R) p = Ok L /\ - (561 / 100) <= L /\ (pT p <= 50000 -> - (2225 / 1000) <= L).
Proof.
  intros IP T SF. pose proof (excess_range p IP) as T1. destruct IP as [Z A]. destruct (proj_Z_int p Z) as [_ B].
  pose proof glast_high as GH. pose proof node28 as N1. pose proof node139 as N2. pose proof eps_small as ES. pose proof eps_pos as EP.
  destruct (Rlt_le_dec ls_glast (pT p)) as [H|H].
  { exists 0. split; [apply C25_lindhard_limits; assumption|lra]. }
  destruct (Req_dec (pT p) ls_glast) as [EQ|NE].
  { destruct ls_a_sizes as [A1 A2], ls_ahi_sizes as [H1 H2]. rewrite (L_unfold p Z) by lra.
    destruct (row_of ls_coefficients_a (Rfloor_Z (pZ p) - 1) (pT p) A1 A2 ltac:(lia)) as [-> R1].
    destruct (row_of ls_coefficients_ahi (Rfloor_Z (pZ p) - 1) (pT p) H1 H2 ltac:(lia)) as [-> R2].
    rewrite ls_table_eq, EQ. unfold ls_glast. rewrite !interp_last by (lia || lra). change (Z.of_nat 200 - 1)%Z with 199%Z.
    rewrite R1, R2 by lia. cbn [bind]. eexists. split; [reflexivity|]. fold ls_glast.
    pose proof (l_bounds (excess p) (Z.to_nat (Rfloor_Z (pZ p) - 1)) 199 T1 ltac:(lia) ltac:(lia)) as Q. change (199 <? 140)%nat with false in Q. cbv iota in Q.
    unfold lr, la, lh in Q. change (Z.to_nat 199) with 199%nat. lra. }
  assert (LT : pT p < ls_glast - numeric_epsilon) by (apply Rnot_le_lt; intros Q; apply SF; lra).
  destruct (L_inside p Z ltac:(lra)) as (i & l & I & L & D & C & E). eexists. split; [exact E|].
  assert (I1 : (28 <= i)%Z).
  { apply Z.nlt_ge. intros Q. assert (G1 : G200 (IZR (i + 1)) <= G200 28) by (apply gval_le; [lia|lra|apply IZR_le; lia]).
    pose proof (grid_spacing i I) as SP. set (g := G200 (IZR i)) in *. set (g1 := G200 (IZR (i + 1))) in *. clearbody g g1. clear - D L SP G1 N1 T. nra. }
  pose proof (l_bounds (excess p) (Z.to_nat (Rfloor_Z (pZ p) - 1)) (Z.to_nat i) T1 ltac:(lia) ltac:(lia)) as P1.
  pose proof (l_bounds (excess p) (Z.to_nat (Rfloor_Z (pZ p) - 1)) (S (Z.to_nat i)) T1 ltac:(lia) ltac:(lia)) as P2.
  set (q := lr _ _ (Z.to_nat i)) in *. set (q1 := lr _ _ (S (Z.to_nat i))) in *. split.
  - assert (- (56 / 10) <= q <= 17 / 10) by (destruct (Z.to_nat i <? 140)%nat; lra). assert (- (56 / 10) <= q1 <= 17 / 10) by (destruct (S (Z.to_nat i) <? 140)%nat; lra).
    clear - L H0 H1. nra.
  - intros T5. assert (I2 : (i < 139)%Z).
    { apply Z.nle_gt. intros Q. assert (G200 139 <= G200 (IZR i)) by (apply gval_le; [lia|lra|now apply IZR_le]). destruct C; lra. }
    replace (Z.to_nat i <? 140)%nat with true in P1 by (symmetry; apply Nat.ltb_lt; lia).
    replace (S (Z.to_nat i) <? 140)%nat with true in P2 by (symmetry; apply Nat.ltb_lt; lia).
    clear - L P1 P2. nra.
Qed.

(** ** The density effect above x0 *)
Lemma bernoulli f d : 0 <= f <= 1 -> 0 < d -> exp (f * ln d) <= 1 + f * (d - 1).
Proof.
  intros F D. set (y := 1 + f * (d - 1)). assert (Y : 0 < y) by (unfold y; destruct (Rle_dec 1 d); nra).
  assert (LN : forall t, 0 < t -> ln t <= t - 1) by (intros t T; pose proof (exp_ineq1_le (ln t)) as H; rewrite exp_ln in H by exact T; lra).
  pose proof (LN (d / y) (Rdiv_lt_0_compat _ _ D Y)) as L1. pose proof (LN (/ y) (Rinv_0_lt_compat _ Y)) as L2.
  unfold Rdiv in L1. rewrite ln_mult in L1 by (try apply Rinv_0_lt_compat; assumption). rewrite ln_Rinv in L1, L2 by exact Y.
  assert (Q : f * (d * / y) + (1 - f) * / y = 1) by (unfold y; field; fold y; lra).
  apply Rle_trans with (exp (ln y)); [apply exp_mono|rewrite exp_ln by exact Y; lra]. nra.
Qed.
Lemma pow_upper d n f m : 0 < d -> m = INR n + f -> 0 <= f <= 1 -> Rpow_c d m <= d ^ n * (1 + f * (d - 1)).
Proof.
  intros D -> F. rewrite Rpow_pos by exact D. rewrite Rpower_plus, Rpower_pow by exact D.
  apply Rmult_le_compat_l; [left; now apply pow_lt|]. now apply bernoulli.
Qed.
Fixpoint qpow (q : Q) (n : nat) : Q := match n with O => 1%Q | S n' => (q * qpow q n')%Q end.
Lemma qpow_R q n : Q2R (qpow q n) = Q2R q ^ n.
Proof. induction n as [|n IH]; cbn [qpow pow]; [unfold Q2R; simpl; lra|]. rewrite Q2R_mult, IH. reflexivity. Qed.
(** the whole part of the exponent *)
Definition whole (m : Q) : nat := Z.to_nat (Qnum m / Zpos (Qden m)).
Definition saturation_check (i : nat) : bool :=
  let g t := dec_Q (nth i t 0%dec) in
  let d := (g density_effect_x1 - g density_effect_x0)%Q in let n := whole (g density_effect_m) in
  let f := (g density_effect_m - inject_Z (Z.of_nat n))%Q in
  Qle_bool 0 f && Qle_bool f 1 && Qle_bool 1 (g density_effect_m) &&
  Qle_bool (g density_effect_a * (qpow d n * (1 + f * (d - 1)))) (g density_effect_c + 1) &&
  Qle_bool (- 6 # 100) (g density_effect_x0) && Qle_bool (g density_effect_del_0) (14 # 100).
Lemma saturation_checked : forallb saturation_check (seq 0 97) = true. Proof. vm_compute. reflexivity. Qed.
Lemma saturation zt : (1 <= zt)%Z ->
  (exists n f, param density_effect_m zt = INR n + f /\ 0 <= f <= 1 /\
     let d := param density_effect_x1 zt - param density_effect_x0 zt in
     param density_effect_a zt * (d ^ n * (1 + f * (d - 1))) <= param density_effect_c zt + 1) /\
  1 <= param density_effect_m zt /\ - (6 / 100) <= param density_effect_x0 zt /\ param density_effect_del_0 zt <= 14 / 100.
Proof.
  intros Z1. pose proof saturation_checked as C. rewrite forallb_forall in C. specialize (C (density_row zt) ltac:(apply in_seq; unfold density_row; lia)).
  unfold saturation_check in C. rewrite !andb_true_iff, !Qle_bool_iff in C. destruct C as (((((C1 & C2) & C3) & C4) & C5) & C6).
  apply Qle_Rle in C1, C2, C3, C4, C5, C6. unfold param. rewrite !Rlit_Q.
  set (n := whole (dec_Q (nth (density_row zt) density_effect_m 0%dec))) in *.
  rewrite ?Q2R_mult, ?Q2R_plus, ?Q2R_minus, ?qpow_R, ?Q2R_mult, ?Q2R_plus, ?Q2R_minus in *.
  replace (Q2R (inject_Z (Z.of_nat n))) with (INR n) in * by (unfold Q2R, inject_Z; cbn [Qnum Qden]; rewrite Rinv_1, Rmult_1_r; now rewrite INR_IZR_INZ).
  replace (Q2R 0) with 0 in * by (unfold Q2R; simpl; lra). replace (Q2R 1) with 1 in * by (unfold Q2R; simpl; lra).
  replace (Q2R (- 6 # 100)) with (- (6 / 100)) in * by (unfold Q2R; simpl; lra). replace (Q2R (14 # 100)) with (14 / 100) in * by (unfold Q2R; simpl; lra).
  split; [|lra]. exists n, (Q2R (dec_Q (nth (density_row zt) density_effect_m 0%dec)) - INR n). split; [ring|]. split; [lra|exact C4].
Qed.

Lemma density_bound beta zt : (1 <= zt)%Z -> exists d, bethek_density_effect (F:=R) beta zt = Ok d /\
  (d <= 14 / 100 \/ (- (6 / 100) <= log_momentum beta /\ d <= 46052 / 10000 * log_momentum beta + 1)).
Proof.
  intros Z1. eexists. split; [apply C41_density_value; exact Z1|]. cbv zeta.
  destruct (density_facts zt Z1) as (A & X & _). destruct (saturation zt Z1) as ((n & f & M & F & K) & M1 & X0 & D0). cbv zeta in K.
  set (x := log_momentum beta). destruct (Rlt_dec x (param density_effect_x0 zt)) as [L|L].
  - left. destruct (Rlt_dec 0 (param density_effect_del_0 zt)) as [D|D]; [|lra].
    assert (P : 0 < Rpow_c 10 (2 * (x - param density_effect_x0 zt)) <= 1).
    { rewrite Rpow_pos by lra. unfold Rpower. split; [apply exp_pos|]. apply Rle_trans with (exp 0); [|rewrite exp_0; lra]. apply exp_mono.
      assert (0 < ln 10) by (rewrite <- ln_1; apply ln_increasing; lra). nra. }
    nra.
  - right. split; [lra|]. set (x0 := param density_effect_x0 zt) in *. set (x1 := param density_effect_x1 zt) in *. set (m := param density_effect_m zt) in *.
    set (a := param density_effect_a zt) in *. set (c := param density_effect_c zt) in *. clearbody x0 x1 m a c x.
    pose proof (pow_upper (x1 - x0) n f m ltac:(lra) M F) as U. set (V := (x1 - x0) ^ n * (1 + f * (x1 - x0 - 1))) in *.
    assert (P0 : 0 < Rpow_c (x1 - x0) m) by (apply Rpow_pos_gt0; lra).
    destruct (Rle_dec x x1) as [LE|GT]; [|nra].
    assert (Q : Rpow_c (x1 - x) m <= Rpow_c (x1 - x0) m).
    { destruct (Req_dec x x1) as [->|NE].
      - rewrite Rminus_eq_0. unfold Rpow_c at 1. destruct (Rlt_dec 0 0); [lra|]. destruct (Req_EM_T 0 0); [|lra]. destruct (Req_EM_T m 0); lra.
      - rewrite !Rpow_pos by lra. apply Rle_Rpower_l; lra. }
    nra.
Qed.
