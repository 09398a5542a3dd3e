(** * The Lindhard-Soerensen correction of protons: small below 60 GeV, slowly changing above *)
From Coq Require Import ZArith QArith Reals Qreals List Bool Lra Lia.
From Verif Require Import Num NumR Structures DataElements DataLSa DataLSahi EnergyTable Srim Calculations Storage SpecData DataProofs GridProofs
  BoundsProofs TotalProofs EnergyOutProofs Cases PropTables PropMaterial PropKin PropDedx PropStrag StragTables PropCorr BetheProofs Near ProtonStopping.
Import ListNotations.
Local Open Scope R_scope.

(** ** The first row of the tables: entries in units of 1e-12 *)
Definition p_entry (i : nat) : bool :=
  let a := la 0 i in let h := lh 0 i in
  fine a && fine h && between (if (i <? 140)%nat then -11400000000 else -3220000000000) 11400000000 (sc a) && between (-20000000000) 20000000000 (sc h - sc a).
Definition p_step (i : nat) : bool := between (-82000000000) 82000000000 (sc (la 0 (S i)) - sc (la 0 i)).
Lemma p_checked : forallb p_entry (seq 28 172) = true /\ forallb p_step (seq 28 171) = true.
Proof. split; vm_compute; reflexivity. Qed.
Lemma p_excess : - (16 / 100) <= excess proton <= 0.
Proof.
  unfold excess. cbv zeta. cbn [proton pZ pA]. assert (F1 : Rfloor_Z 1 = 1%Z). { destruct (Rfloor_bound 1) as [B1 B2]. assert (0 < Rfloor_Z 1)%Z by (apply lt_IZR; lra). apply le_IZR in B1. lia. }
  rewrite F1. assert (W : element_atomic_weight (F:=R) 1 = 100794 / 100000) by (change (element_atomic_weight (F:=R) 1) with (Rlit 1.00794%dec); dec_norm; lra). rewrite W. lra.
Qed.
Definition row (i : nat) : R := lr (excess proton) 0 i.
Lemma row_bounds i : (28 <= i < 200)%nat -> - (323 / 100) <= row i <= 15 / 1000 /\ ((i < 140)%nat -> - (15 / 1000) <= row i).
Proof.
  intros I. destruct p_checked as [C _]. rewrite forallb_forall in C. specialize (C i ltac:(apply in_seq; lia)). unfold p_entry, between in C. rewrite !andb_true_iff, !Z.leb_le in C.
  destruct C as (((F1 & F2) & L1 & U1) & L2 & U2). apply IZR_le in L1, U1, L2, U2. rewrite minus_IZR in L2, U2. rewrite (sc_R _ F1) in *. rewrite (sc_R _ F2) in *. replace (10 ^ 12) with 1000000000000 in * by lra.
  pose proof p_excess as E. unfold row, lr. set (a := Rlit (la 0 i)) in *. set (h := Rlit (lh 0 i)) in *. set (t := excess proton) in *. clearbody a h t.
  assert (T : - (32 / 10000) <= t * (h - a) <= 32 / 10000) by (split; nra). set (d := t * (h - a)) in *. clearbody d. destruct (i <? 140)%nat eqn:Q.
  - split; [lra|intros _; lra].
  - split; [lra|]. intros J. apply Nat.ltb_ge in Q. lia.
Qed.
Lemma row_step i : (28 <= i < 199)%nat -> - (89 / 1000) <= row (S i) - row i <= 89 / 1000.
Proof.
  intros I. destruct p_checked as [C D]. rewrite forallb_forall in C, D. pose proof (C (S i) ltac:(apply in_seq; lia)) as C1. specialize (C i ltac:(apply in_seq; lia)). specialize (D i ltac:(apply in_seq; lia)).
  unfold p_entry, p_step, between in *. rewrite !andb_true_iff, !Z.leb_le in *.
  destruct C as (((F1 & F2) & _ & _) & L2 & U2). destruct C1 as (((F3 & F4) & _ & _) & L4 & U4). destruct D as [D1 D2]. apply IZR_le in L2, U2, L4, U4, D1, D2. rewrite !minus_IZR in *. rewrite (sc_R _ F1), (sc_R _ F3) in *. rewrite (sc_R _ F2) in *. rewrite (sc_R _ F4) in *.
  replace (10 ^ 12) with 1000000000000 in * by lra. pose proof p_excess as E. unfold row, lr.
  set (a := Rlit (la 0 i)) in *. set (h := Rlit (lh 0 i)) in *. set (a' := Rlit (la 0 (S i))) in *. set (h' := Rlit (lh 0 (S i))) in *. set (t := excess proton) in *. clearbody a h a' h' t.
  assert (T : - (32 / 10000) <= t * (h - a) <= 32 / 10000) by (split; nra). assert (T' : - (32 / 10000) <= t * (h' - a') <= 32 / 10000) by (split; nra).
  set (d := t * (h - a)) in *. set (d' := t * (h' - a')) in *. clearbody d d'. lra.
Qed.

(** ** The interpolated values *)
Definition lindhard (T : R) : R := match precalculated_lindhard (proton_at T) with Ok l => l | UB _ => 0 end.
Lemma lindhard_at T : 10 <= T < ls_glast - numeric_epsilon -> exists i l, (28 <= i <= 198)%nat /\ - (1 / 1000) <= l < 1 /\
  G200 (INR i) - numeric_epsilon <= T < G200 (INR i + 1) /\ precalculated_lindhard (proton_at T) = Ok (lindhard T) /\ lindhard T = (1 - l) * row i + l * row (S i).
Proof.
  intros T1. assert (Z : proj_Z_ok (proton_at T)) by (unfold proj_Z_ok; cbn; lra).
  destruct (L_inside (proton_at T) Z) as (i & l & I & L & D & C & E). { cbn [proton_at pT]. lra. }
  cbn [proton_at pT] in D, C. pose proof node28 as N1. pose proof (grid_spacing i I) as SP. pose proof eps_pos as EP.
  assert (I1 : (28 <= i)%Z).
  { apply Z.nlt_ge. intros Q. assert (G1 : G200 (IZR (i + 1)) <= G200 28) by (apply gval_le; [lia|lra|apply IZR_le; lia]).
    set (g := G200 (IZR i)) in *. set (g1 := G200 (IZR (i + 1))) in *. clearbody g g1. clear - D L SP G1 N1 T1. nra. }
  assert (F1 : Rfloor_Z 1 = 1%Z). { destruct (Rfloor_bound 1) as [B1 B2]. assert (0 < Rfloor_Z 1)%Z by (apply lt_IZR; lra). apply le_IZR in B1. lia. }
  cbn [proton_at pZ] in E. rewrite F1 in E. change (Z.to_nat (1 - 1)) with 0%nat in E. change (excess (mkProj 1 1 1 T)) with (excess proton) in E. fold (row (Z.to_nat i)) in E. fold (row (S (Z.to_nat i))) in E. fold (proton_at T) in E.
  exists (Z.to_nat i), l. split; [lia|]. split; [exact L|]. rewrite INR_IZR_INZ, Z2Nat.id by lia. rewrite plus_IZR in *. split.
  - split; [destruct C; lra|]. set (g := G200 (IZR i)) in *. set (g1 := G200 (IZR i + 1)) in *. clearbody g g1. clear - D L SP. nra.
  - unfold lindhard. rewrite E. split; reflexivity.
Qed.
Lemma mix_bounds l a b lo hi : - (1 / 1000) <= l < 1 -> lo <= a <= hi -> lo <= b <= hi -> lo - (hi - lo) / 1000 <= (1 - l) * a + l * b <= hi + (hi - lo) / 1000.
Proof. intros L A B. split; nra. Qed.
Lemma lindhard_range T : 10 <= T < ls_glast - numeric_epsilon -> - (324 / 100) <= lindhard T <= 19 / 1000 /\ (T <= 59000 -> - (16 / 1000) <= lindhard T).
Proof.
  intros H. destruct (lindhard_at T H) as (i & l & I & L & B & _ & ->). destruct (row_bounds i ltac:(lia)) as [A1 A2]. destruct (row_bounds (S i) ltac:(lia)) as [B1 B2]. split.
  - pose proof (mix_bounds l (row i) (row (S i)) (- (323 / 100)) (15 / 1000) L A1 B1). lra.
  - intros T5. assert (I2 : (i < 139)%nat).
    { apply Nat.nle_gt. intros Q. assert (G139 : 59999 < G200 139). { pose proof exp_node139 as E. unfold gval, gstep. replace (INR 200) with 200 by (rewrite INR_IZR_INZ; reflexivity).
        assert (LN : 23 / 10 <= LN10_ (F:=R)) by (unfold LN10_; numR; dec_norm; lra). apply Rlt_le_trans with 60000; [lra|]. eapply Rle_trans; [exact E|]. apply exp_mono. lra. }
      assert (G200 139 <= G200 (INR i)) by (apply gval_le; [lia|lra|]; rewrite INR_IZR_INZ; apply IZR_le; lia). pose proof eps_small. lra. }
    specialize (A2 ltac:(lia)). specialize (B2 ltac:(lia)). pose proof (mix_bounds l (row i) (row (S i)) (- (15 / 1000)) (15 / 1000) L ltac:(lra) ltac:(lra)). lra.
Qed.
Lemma lindhard_step x z : 10 <= x -> x <= z -> z <= 104 / 100 * x -> z < ls_glast - numeric_epsilon -> - (27 / 100) <= lindhard z - lindhard x <= 27 / 100.
Proof.
  intros X XZ ZX ZG. destruct (lindhard_at x ltac:(lra)) as (i & l & I & L & [B1 B2] & _ & ->). destruct (lindhard_at z ltac:(lra)) as (j & m & J & M & [C1 C2] & _ & ->).
  pose proof eps_small as ES. pose proof eps_pos as EP.
  assert (GM : forall a b : nat, (a <= b)%nat -> G200 (INR a) <= G200 (INR b)) by (intros a b Q; apply gval_le; [lia|lra|apply le_INR; exact Q]).
  assert (RT : forall s, 1 <= G200 s -> 106 / 100 * G200 s < G200 (s + 1)).
  { intros s S1. pose proof (gval_ratio 200 0 7 s) as G. assert (GE : G200 (s + 1) = exp (LN10_ * gstep 200 0 7) * G200 s) by (rewrite <- G; field; lra). rewrite GE. assert (107 / 100 <= exp (LN10_ * gstep 200 0 7)).
    { eapply Rle_trans; [|apply exp_ineq1_le]. unfold gstep. replace (INR 200) with 200 by (rewrite INR_IZR_INZ; reflexivity). assert (LN : 23 / 10 <= LN10_ (F:=R)) by (unfold LN10_; numR; dec_norm; lra). lra. }
    nra. }
  assert (G1 : forall a : nat, 1 <= G200 (INR a)).
  { intros a. replace 1 with (G200 (INR 0)) by (cbn [INR]; unfold gval; rewrite Rmult_0_l, Rplus_0_l, Rmult_0_r; apply exp_0). apply GM. lia. }
  assert (JI : (j <= i + 1)%nat).
  { apply Nat.nlt_ge. intros Q. pose proof (GM (S (S i)) j ltac:(lia)) as H. rewrite S_INR in H. pose proof (RT (INR (S i)) (G1 _)) as R1. rewrite S_INR in R1, H. specialize (G1 (S i)). rewrite S_INR in G1. set (g := G200 (INR i + 1)) in *. lra. }
  assert (IJ : (i <= j + 1)%nat).
  { apply Nat.nlt_ge. intros Q. pose proof (GM (S (S j)) i ltac:(lia)) as H. rewrite !S_INR in H. pose proof (RT (INR (S j)) (G1 _)) as R1. rewrite S_INR in R1. specialize (G1 (S j)). rewrite S_INR in G1. set (g := G200 (INR j + 1)) in *. lra. }
  pose proof (row_step i ltac:(lia)) as S1. pose proof (row_step j ltac:(lia)) as S2.
  assert (D : - (89 / 1000) <= row j - row i <= 89 / 1000).
  { assert (Q : j = i \/ j = S i \/ i = S j) by lia. destruct Q as [->|[->| ->]]; [lra|exact S1|lra]. }
  replace ((1 - m) * row j + m * row (S j) - ((1 - l) * row i + l * row (S i))) with (row j - row i + m * (row (S j) - row j) - l * (row (S i) - row i)) by ring.
  set (a := row (S i) - row i) in *. set (b := row (S j) - row j) in *. set (d := row j - row i) in *. clearbody a b d. clear - S1 S2 D L M.
  assert (- (89 / 1000) <= l * a <= 89 / 1000) by (split; nra). assert (- (89 / 1000) <= m * b <= 89 / 1000) by (split; nra). lra.
Qed.
