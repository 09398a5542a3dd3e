(** * C28: the tabulated range and variances *)
From Coq Require Import ZArith Reals List Bool Lra Lia.
From Verif Require Import Num NumR Structures EnergyTable Integrator DataQuadrature Calculations Storage ApiTotal
  GridProofs TotalProofs QuadProofs PropQuad PropSrim Cases.
Import ListNotations.
Local Open Scope R_scope.

Lemma accumulate_nth (step : R -> R -> outcome R) : forall rest lo prev l, accumulate step lo rest prev = Ok l ->
  length l = length rest /\
  forall i, (i < length rest)%nat -> exists r, step (nth i (lo :: rest) 0) (nth i rest 0) = Ok r /\ nth i l 0 = r + nth i (prev :: l) 0.
Proof.
  induction rest as [|hi rest IH]; intros lo prev l H; cbn [accumulate] in H.
  - injection H as <-. split; [reflexivity|]. cbn [length]. lia.
  - destruct (step lo hi) as [r|] eqn:E; cbn [bind] in H; [|discriminate].
    destruct (accumulate step hi rest _) as [l'|] eqn:E' in H; cbn [bind] in H; [|discriminate].
    apply IH in E'. destruct E' as [L N]. revert N H. numR. intros N H. injection H as <-. split; [cbn [length]; congruence|].
    intros [|i] I.
    + exists r. split; [exact E|reflexivity].
    + cbn [length] in I. destruct (N i ltac:(lia)) as (r' & A & B). exists r'. split; [exact A|]. cbn [nth] in B |- *. exact B.
Qed.
Lemma table_nth (step : R -> R -> outcome R) grid l : table step grid = Ok l -> grid <> [] ->
  length l = length grid /\ nth 0 l 0 = 0 /\
  forall i, (S i < length grid)%nat -> exists r, step (nth i grid 0) (nth (S i) grid 0) = Ok r /\ nth (S i) l 0 - nth i l 0 = r.
Proof.
  intros H NE. destruct grid as [|g rest]; [contradiction|]. cbn [table] in H.
  destruct (accumulate step g rest (lit 0.0)) as [l'|] eqn:E; cbn [bind] in H; [|discriminate].
  apply accumulate_nth in E. destruct E as [L N]. assert (EL : l = Rlit 0.0 :: l') by (revert H; numR; intros H; congruence). subst l. rewrite zero.
  split; [cbn [length]; congruence|]. split; [reflexivity|]. intros i I. cbn [length] in I.
  destruct (N i ltac:(lia)) as (r & A & B). exists r. split; [exact A|]. change (nth (S i) (0 :: l') 0) with (nth i l' 0). rewrite B.
  change (lit 0.0 : R) with (Rlit 0.0). rewrite zero. ring.
Qed.

(** the grid: point number i, in MeV/u *)
Definition energy (i : nat) : R := nth i (et_values (energy_table (F:=R))) 0.
Lemma energy_G i : (i < 600)%nat -> energy i = G600 (INR i). Proof. apply grid_nth. Qed.
Lemma energy_incr i : (S i < 600)%nat -> energy i < energy (S i).
Proof. intros I. rewrite !energy_G by lia. apply gval_lt; [apply n600|apply l600|]. apply lt_INR. lia. Qed.
Lemma energy_pos i : (i < 600)%nat -> 0 < energy i. Proof. intros I. rewrite energy_G by lia. apply gval_pos. Qed.

(** tables of A times a quadrature: the differences *)
Lemma scaled_nth A f l : table (scaled_integral A f) (et_values (energy_table (F:=R))) = Ok l ->
  length l = 600%nat /\ nth 0 l 0 = 0 /\
  forall i, (S i < 600)%nat -> exists r, integrate f (energy i) (energy (S i)) = Ok r /\ nth (S i) l 0 - nth i l 0 = A * r.
Proof.
  intros H. apply table_nth in H; [|intros E; pose proof grid_length as L; rewrite E in L; discriminate]. rewrite grid_length in H.
  destruct H as (L & Z & N). split; [exact L|]. split; [exact Z|]. intros i I. destruct (N i I) as (r & S & D).
  unfold scaled_integral in S. destruct (integrate f _ _) as [v|] eqn:E in S; cbn [bind] in S; [|discriminate].
  exists v. split; [exact E|]. rewrite D. revert S. numR. intros S. congruence.
Qed.

(** ** Each difference is A times the quadrature of the density over the interval *)
Theorem C28_differences p t c rt st at_ : range_table p t c = Ok rt -> straggling_table p t c = Ok st -> angular_table p t c = Ok at_ ->
  (length rt = 600 /\ length st = 600 /\ length at_ = 600)%nat /\
  nth 0 rt 0 = 0 /\ nth 0 st 0 = 0 /\ nth 0 at_ 0 = 0 /\
  forall i, (S i < 600)%nat -> exists r s a,
    integrate (fun x => d <- dedx (at_T p x) t c ;; Ok (1 / d)) (energy i) (energy (S i)) = Ok r /\
    integrate (fun x => o <- domega2dx (at_T p x) t c ;; d <- dedx (at_T p x) t c ;; Ok (o / exp (ln d * 3))) (energy i) (energy (S i)) = Ok s /\
    integrate (fun x => o <- da2dx (at_T p x) t c ;; d <- dedx (at_T p x) t c ;; Ok (o / d)) (energy i) (energy (S i)) = Ok a /\
    nth (S i) rt 0 - nth i rt 0 = pA p * r /\ nth (S i) st 0 - nth i st 0 = pA p * s /\ nth (S i) at_ 0 - nth i at_ 0 = pA p * a.
Proof.
  intros HR HS HA. apply scaled_nth in HR, HS, HA. destruct HR as (L1 & Z1 & N1). destruct HS as (L2 & Z2 & N2). destruct HA as (L3 & Z3 & N3).
  split; [split; [exact L1|split; [exact L2|exact L3]]|]. split; [exact Z1|]. split; [exact Z2|]. split; [exact Z3|].
  intros i I. destruct (N1 i I) as (r & R1 & R2). destruct (N2 i I) as (s & S1 & S2). destruct (N3 i I) as (a & A1 & A2).
  exists r, s, a. split; [|split; [|split; [|split; [exact R2|split; [exact S2|exact A2]]]]].
  - rewrite <- R1. apply gl_ext. intros x _. unfold fdedx. destruct (dedx _ _ _); cbn [bind]; [|reflexivity]. numR. f_equal.
    replace (Rlit 1.0) with 1 by (dec_norm; lra). reflexivity.
  - rewrite <- S1. apply gl_ext. intros x _. unfold fomega. destruct (domega2dx _ _ _); cbn [bind]; [|reflexivity].
    destruct (dedx _ _ _); cbn [bind]; [|reflexivity]. unfold power. numR. replace (Rlit 3) with 3 by (dec_norm; lra). reflexivity.
  - rewrite <- A1. apply gl_ext. intros x _. unfold ftheta, da2de. destruct (da2dx _ _ _); cbn [bind]; [|reflexivity].
    destruct (dedx _ _ _); cbn [bind]; reflexivity.
Qed.
Print Assumptions C28_differences.

(** ** The range strictly increases where the stopping power is positive *)
Theorem C28_increasing p t c rt i : range_table p t c = Ok rt -> 0 < pA p -> (S i < 600)%nat ->
  (forall x d, energy i < x < energy (S i) -> dedx (at_T p x) t c = Ok d -> 0 < d) ->
  nth i rt 0 < nth (S i) rt 0.
Proof.
  intros HR A I P. apply scaled_nth in HR. destruct HR as (L & _ & N). destruct (N i I) as (r & E & D).
  destruct C26_library as [IN LIB]. rewrite LIB in E.
  assert (0 < r).
  { apply (C26_positive _ _ _ _ _ IN (energy_incr i I)) in E; [exact E|]. intros x u X U. unfold fdedx in U.
    destruct (dedx (at_T p x) t c) as [d|] eqn:ED; cbn [bind] in U; [|discriminate]. specialize (P x d X ED).
    revert U. numR. intros U. injection U as <-. apply Rmult_lt_0_compat; [dec_norm; lra|apply Rinv_0_lt_compat; exact P]. }
  assert (0 < pA p * r) by (apply Rmult_lt_0_compat; assumption). lra.
Qed.
Print Assumptions C28_increasing.

Lemma increasing_far (l : list R) k : (forall i, (i < k)%nat -> nth i l 0 < nth (S i) l 0) -> forall i j, (i < j <= k)%nat -> nth i l 0 < nth j l 0.
Proof.
  intros H i j J. induction j as [|j IH]; [lia|]. destruct (Nat.eq_dec i j) as [->|NE]; [apply H; lia|].
  specialize (IH ltac:(lia)). specialize (H j ltac:(lia)). lra.
Qed.
Lemma monotone_far (l : list R) k : (forall i, (i < k)%nat -> nth i l 0 <= nth (S i) l 0) -> forall i j, (i <= j <= k)%nat -> nth i l 0 <= nth j l 0.
Proof.
  intros H i j J. induction j as [|j IH]; [replace i with 0%nat by lia; lra|]. destruct (Nat.eq_dec i (S j)) as [->|NE]; [lra|].
  specialize (IH ltac:(lia)). specialize (H j ltac:(lia)). lra.
Qed.

(** along the whole table, if the stopping power is positive inside the tabulated interval *)
Corollary C28_whole_table p t c rt : range_table p t c = Ok rt -> 0 < pA p ->
  (forall x d, energy 0 < x < energy 599 -> dedx (at_T p x) t c = Ok d -> 0 < d) ->
  nth 0 rt 0 = 0 /\ forall i j, (i < j < 600)%nat -> nth i rt 0 < nth j rt 0.
Proof.
  intros HR A P. split; [apply scaled_nth in HR; tauto|]. intros i j J.
  apply (increasing_far rt 599); [|lia]. intros k K. apply (C28_increasing p t c); [exact HR|exact A|lia|].
  intros x d X E. apply (P x); [|exact E].
  assert (M : forall u v, (u <= v < 600)%nat -> energy u <= energy v).
  { intros u v UV. rewrite !energy_G by lia. apply gval_le; [apply n600|apply l600|]. apply le_INR. lia. }
  pose proof (M 0%nat k ltac:(lia)). pose proof (M (S k) 599%nat ltac:(lia)). lra.
Qed.
Print Assumptions C28_whole_table.

(** no assumption on the stopping power is needed up to 10 MeV/u: it is positive there *)
Theorem C28_low p t c rt : ion p -> solid t -> range_table p t c = Ok rt ->
  nth 0 rt 0 = 0 /\ forall i j, (i < j < 600)%nat -> energy j <= 10 -> nth i rt 0 < nth j rt 0.
Proof.
  intros IO SO HR. split; [apply scaled_nth in HR; tauto|]. intros i j J J10.
  assert (M : forall u v, (u <= v < 600)%nat -> energy u <= energy v).
  { intros u v UV. rewrite !energy_G by lia. apply gval_le; [apply n600|apply l600|]. apply le_INR. lia. }
  apply (increasing_far rt j); [|lia]. intros k K. apply (C28_increasing p t c); [exact HR|apply IO|lia|].
  intros x d X E. destruct (C42_dedx (at_T p x) t c) as (d' & E' & D').
  - cbn [at_T pT]. pose proof (energy_pos k ltac:(lia)). lra.
  - cbn [at_T pT]. pose proof (M (S k) j ltac:(lia)). lra.
  - exact IO.
  - exact SO.
  - congruence.
Qed.
Print Assumptions C28_low.

(** ** The variances never decrease where their densities are not negative *)
Theorem C28_variances p t c st at_ i : straggling_table p t c = Ok st -> angular_table p t c = Ok at_ -> 0 <= pA p -> (S i < 600)%nat ->
  (forall x d, energy i < x < energy (S i) -> dedx (at_T p x) t c = Ok d -> 0 < d) ->
  ((forall x o, energy i < x < energy (S i) -> domega2dx (at_T p x) t c = Ok o -> 0 <= o) -> nth i st 0 <= nth (S i) st 0) /\
  ((forall x o, energy i < x < energy (S i) -> da2dx (at_T p x) t c = Ok o -> 0 <= o) -> nth i at_ 0 <= nth (S i) at_ 0).
Proof.
  intros HS HA A I P. apply scaled_nth in HS, HA. destruct HS as (_ & _ & N2). destruct HA as (_ & _ & N3).
  destruct (N2 i I) as (s & S1 & S2). destruct (N3 i I) as (a & A1 & A2). clear N2 N3.
  destruct C26_library as [IN LIB]. rewrite LIB in S1, A1.
  assert (Z0 : exists z, quad (8%nat, GL8_x, GL8_w) (fun _ => Ok 0) (energy i) (energy (S i)) = Ok z /\ z = 0).
  { eexists. split; [unfold quad; cbn [fst snd]; apply gl_value; discriminate|].
    assert (PZ : forall l p q, pair_sum l (fun _ => 0) p q = 0) by (induction l as [|[u v] l IH]; intros; cbn [pair_sum]; [reflexivity|]; rewrite IH; ring).
    cbn [Nat.odd node_sum]. unfold node_sum. change (Nat.odd 8) with false. cbv iota. rewrite PZ. ring. }
  destruct Z0 as (z & QZ & Z0). pose proof (energy_incr i I) as LT. split; intros O.
  - assert (0 <= s).
    { rewrite <- Z0. refine (C26_monotone _ _ _ _ _ _ _ IN (Rlt_le _ _ LT) _ QZ S1). intros x u v X U V. injection U as <-.
      unfold fomega in V. destruct (domega2dx _ _ _) as [o|] eqn:EO in V; cbn [bind] in V; [|discriminate].
      destruct (dedx _ _ _) as [d|] eqn:ED in V; cbn [bind] in V; [|discriminate]. specialize (O x o X EO).
      unfold power in V. revert V. numR. intros V. injection V as <-. apply Rmult_le_pos; [exact O|left; apply Rinv_0_lt_compat; apply exp_pos]. }
    assert (0 <= pA p * s) by (apply Rmult_le_pos; assumption). lra.
  - assert (0 <= a).
    { rewrite <- Z0. refine (C26_monotone _ _ _ _ _ _ _ IN (Rlt_le _ _ LT) _ QZ A1). intros x u v X U V. injection U as <-.
      unfold ftheta, da2de in V. destruct (da2dx _ _ _) as [o|] eqn:EO in V; cbn [bind] in V; [|discriminate].
      destruct (dedx _ _ _) as [d|] eqn:ED in V; cbn [bind] in V; [|discriminate]. specialize (O x o X EO). specialize (P x d X ED).
      revert V. numR. intros V. injection V as <-. apply Rmult_le_pos; [exact O|left; apply Rinv_0_lt_compat; exact P]. }
    assert (0 <= pA p * a) by (apply Rmult_le_pos; assumption). lra.
Qed.
Print Assumptions C28_variances.

(** ** A concrete case: carbon ions in water; the first 10 points are below 10 MeV/u *)
Example C28_case : exists rt, range_table (carbon 5) (water 1) conf = Ok rt /\ nth 0 rt 0 = 0 /\ nth 3 rt 0 < nth 9 rt 0.
Proof.
  assert (S : solid (water 1)).
  { unfold solid, water. cbn. split; [discriminate|]. split; [lra|]. repeat constructor; cbn; try lia; lra. }
  assert (K : key_ok (carbon 5) (water 1)).
  { apply legit_key; auto with cases. }
  destruct (range_table_ok (carbon 5) (water 1) conf K) as (rt & E & _). exists rt. split; [exact E|].
  destruct (C28_low (carbon 5) (water 1) conf rt) as [Z0 INC]; [unfold ion, carbon; cbn; lra|exact S|exact E|].
  split; [exact Z0|]. apply INC; [lia|]. rewrite energy_G by lia. unfold gval, gstep.
  apply Rle_trans with (exp 0); [left; apply exp_increasing|rewrite exp_0; lra].
  pose proof LN10_bounds. replace (INR 600) with 600 by (rewrite INR_IZR_INZ; reflexivity). replace (INR 9) with 9 by (rewrite INR_IZR_INZ; reflexivity). nra.
Qed.
