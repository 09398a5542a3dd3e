(** * The energy straggling of protons in nitrogen changes slowly with the energy, II: the variance *)
From Coq Require Import ZArith QArith Reals Qreals List Bool Lra Lia.
From Verif Require Import Num NumR Structures DataSrim DataElements DataLSXa DataLSXahi EnergyTable Srim Calculations Storage SpecData DataProofs GridProofs
  BoundsProofs TotalProofs EnergyOutProofs Cases PropGrid PropTables PropMaterial PropKin PropDedx PropSrim PropZeff PropCorr PropStrag StragTables BetheProofs BetheBracket LnBounds PropLSTable Near ProtonStopping ProtonLindhard ProtonHigh ProtonBethe
  PropMonoApi PropMonoProton ProtonStrag.
Import ListNotations.
Local Open Scope R_scope.

(** ** The straggling factor: the first row of the tables, entries in units of 1e-12, and 25 times the factor at an excess of -0.16 *)
Definition ca (i : nat) : Z := sc (xa 0 i).
Definition cq (i : nat) : Z := (29 * sc (xa 0 i) - 4 * sc (xh 0 i))%Z.
Definition x_entry (i : nat) : bool :=
  fine (xa 0 i) && fine (xh 0 i) && (0 <=? ca i)%Z && (ca i <=? 1000000000000)%Z && (0 <=? cq i)%Z && (cq i <=? 25000000000000)%Z &&
  (if (i <? 140)%nat then (494000000000 <=? ca i)%Z && (12350000000000 <=? cq i)%Z else true) && (if (i <? 31)%nat then (988000000000 <=? ca i)%Z && (24700000000000 <=? cq i)%Z else true).
Definition x_step (i : nat) : bool :=
  (ca (S i) <=? 1000 * ca i)%Z && (cq (S i) <=? 1000 * cq i)%Z &&
  (if (i <? 139)%nat then (ca (S i) <=? ca i)%Z && (cq (S i) <=? cq i)%Z && (1000 * ca i <=? 1018 * ca (S i))%Z && (1000 * cq i <=? 1018 * cq (S i))%Z else true).
Lemma x_row_checked : forallb x_entry (seq 0 200) = true /\ forallb x_step (seq 0 199) = true.
Proof. split; vm_compute; reflexivity. Qed.
Definition xrow (i : nat) : R := xr (excess proton) 0 i.
(** the factor is a mean of its values at excess 0 and -0.16 *)
Lemma xrow_mean i : fine (xa 0 i) = true -> fine (xh 0 i) = true -> 10 ^ 12 * xrow i = (1 + 25 / 4 * excess proton) * IZR (ca i) + - (25 / 4 * excess proton) * (IZR (cq i) / 25).
Proof. intros F1 F2. unfold ca, cq, xrow, xr. rewrite minus_IZR, !mult_IZR, !sc_R by assumption. field. Qed.
Lemma mean_le l a b a' b' k : 0 <= l <= 1 -> a <= k * a' -> b <= k * b' -> (1 - l) * a + l * b <= k * ((1 - l) * a' + l * b').
Proof. intros L A B. assert ((1 - l) * a <= (1 - l) * (k * a')) by (apply Rmult_le_compat_l; lra). assert (l * b <= l * (k * b')) by (apply Rmult_le_compat_l; lra). lra. Qed.
Lemma xrow_bounds i : (i < 200)%nat -> 0 <= xrow i <= 1 /\ ((i < 140)%nat -> 494 / 1000 <= xrow i) /\ ((i < 31)%nat -> 988 / 1000 <= xrow i).
Proof.
  intros I. destruct x_row_checked as [C _]. rewrite forallb_forall in C. specialize (C i ltac:(apply in_seq; lia)). unfold x_entry in C. rewrite !andb_true_iff in C. destruct C as (((((((F1 & F2) & A1) & A2) & A3) & A4) & A5) & A6).
  apply Z.leb_le in A1, A2, A3, A4. apply IZR_le in A1, A2, A3, A4. pose proof (xrow_mean i F1 F2) as M. pose proof p_excess as E. set (t := excess proton) in *. set (l := - (25 / 4 * t)) in *. assert (L : 0 <= l <= 1) by (unfold l; lra). replace (1 + 25 / 4 * t) with (1 - l) in M by (unfold l; ring).
  replace (10 ^ 12) with 1000000000000 in M by lra. set (v := xrow i) in *. clearbody v l. clear t E.
  assert (B5 : (i < 140)%nat -> 494000000000 <= IZR (ca i) /\ 12350000000000 <= IZR (cq i)) by (intros Q; apply Nat.ltb_lt in Q; rewrite Q in A5; apply andb_true_iff in A5; rewrite !Z.leb_le in A5; destruct A5; split; apply IZR_le; assumption).
  assert (B6 : (i < 31)%nat -> 988000000000 <= IZR (ca i) /\ 24700000000000 <= IZR (cq i)) by (intros Q; apply Nat.ltb_lt in Q; rewrite Q in A6; apply andb_true_iff in A6; rewrite !Z.leb_le in A6; destruct A6; split; apply IZR_le; assumption).
  set (a := IZR (ca i)) in *. set (b := IZR (cq i)) in *. clearbody a b. clear A5 A6.
  split; [split|split].
  - pose proof (mean_le l 0 0 a (b / 25) 1 L ltac:(lra) ltac:(lra)). lra.
  - pose proof (mean_le l a (b / 25) 1000000000000 1000000000000 1 L ltac:(lra) ltac:(lra)). lra.
  - intros Q. destruct (B5 Q) as [Q1 Q2]. pose proof (mean_le l 494000000000 494000000000 a (b / 25) 1 L ltac:(lra) ltac:(lra)). lra.
  - intros Q. destruct (B6 Q) as [Q1 Q2]. pose proof (mean_le l 988000000000 988000000000 a (b / 25) 1 L ltac:(lra) ltac:(lra)). lra.
Qed.
Lemma xrow_step i : (i < 199)%nat -> xrow (S i) <= 1000 * xrow i /\ ((i < 139)%nat -> xrow (S i) <= xrow i <= 1018 / 1000 * xrow (S i)).
Proof.
  intros I. destruct x_row_checked as [C D]. rewrite forallb_forall in C, D. pose proof (C (S i) ltac:(apply in_seq; lia)) as C1. specialize (C i ltac:(apply in_seq; lia)). specialize (D i ltac:(apply in_seq; lia)). unfold x_entry, x_step in *. rewrite !andb_true_iff in *.
  destruct C as (((((((F1 & F2) & _) & _) & _) & _) & _) & _). destruct C1 as (((((((F3 & F4) & _) & _) & _) & _) & _) & _). destruct D as ((D1 & D2) & D3). apply Z.leb_le in D1, D2. apply IZR_le in D1, D2. rewrite mult_IZR in D1, D2.
  pose proof (xrow_mean i F1 F2) as M. pose proof (xrow_mean (S i) F3 F4) as M'. pose proof p_excess as E. set (t := excess proton) in *. set (l := - (25 / 4 * t)) in *. assert (L : 0 <= l <= 1) by (unfold l; lra). replace (1 + 25 / 4 * t) with (1 - l) in * by (unfold l; ring).
  replace (10 ^ 12) with 1000000000000 in * by lra. set (v := xrow i) in *. set (v' := xrow (S i)) in *. clearbody v v' l. clear t E.
  split; [pose proof (mean_le l (IZR (ca (S i))) (IZR (cq (S i)) / 25) (IZR (ca i)) (IZR (cq i) / 25) 1000 L ltac:(lra) ltac:(lra)); lra|]. intros Q. apply Nat.ltb_lt in Q. rewrite Q in D3. rewrite !andb_true_iff, !Z.leb_le in D3. destruct D3 as (((D3 & D4) & D5) & D6). apply IZR_le in D3, D4, D5, D6. rewrite !mult_IZR in D5, D6.
  pose proof (mean_le l (IZR (ca (S i))) (IZR (cq (S i)) / 25) (IZR (ca i)) (IZR (cq i) / 25) 1 L ltac:(lra) ltac:(lra)). pose proof (mean_le l (IZR (ca i)) (IZR (cq i) / 25) (IZR (ca (S i))) (IZR (cq (S i)) / 25) (1018 / 1000) L ltac:(lra) ltac:(lra)). lra.
Qed.

(** *** interpolated *)
Definition xfac (T : R) : R := match precalculated_lindhard_X (proton_at T) with Ok x => x | UB _ => 0 end.
Lemma xfac_one T : T < 1 -> precalculated_lindhard_X (proton_at T) = Ok (xfac T) /\ xfac T = 1.
Proof.
  intros H. assert (Z : proj_Z_ok (proton_at T)) by (unfold proj_Z_ok; cbn; lra). destruct (C25_lindhard_limits (proton_at T) Z) as [_ L]. specialize (L H). unfold xfac. rewrite L. split; reflexivity.
Qed.
Lemma xfac_at T : 1 <= T < ls_glast - numeric_epsilon -> exists i l, (i <= 198)%nat /\ - (1 / 1000) <= l < 1 /\
  G200 (INR i) - numeric_epsilon <= T < G200 (INR i + 1) /\ T = G200 (INR i) + l * (G200 (INR i + 1) - G200 (INR i)) /\ precalculated_lindhard_X (proton_at T) = Ok (xfac T) /\ xfac T = (1 - l) * xrow i + l * xrow (S i).
Proof.
  intros T1. assert (Z : proj_Z_ok (proton_at T)) by (unfold proj_Z_ok; cbn; lra).
  destruct (X_inside (proton_at T) Z) as (i & l & I & L & D & C & E). { cbn [proton_at pT]. lra. }
  cbn [proton_at pT] in D, C. pose proof (grid_spacing i I) as SP. pose proof eps_pos as EP.
  assert (F1 : Rfloor_Z 1 = 1%Z). { destruct (Rfloor_bound 1) as [B1 B2]. assert (0 < Rfloor_Z 1)%Z by (apply lt_IZR; lra). apply le_IZR in B1. lia. }
  cbn [proton_at pZ] in E. rewrite F1 in E. change (Z.to_nat (1 - 1)) with 0%nat in E. change (excess (mkProj 1 1 1 T)) with (excess proton) in E. fold (xrow (Z.to_nat i)) in E. fold (xrow (S (Z.to_nat i))) in E. fold (proton_at T) in E.
  exists (Z.to_nat i), l. split; [lia|]. split; [exact L|]. rewrite INR_IZR_INZ, Z2Nat.id by lia. rewrite plus_IZR in *. split; [|split; [exact D|]].
  - split; [destruct C; lra|]. set (g := G200 (IZR i)) in *. set (g1 := G200 (IZR i + 1)) in *. clearbody g g1. clear - D L SP. nra.
  - unfold xfac. rewrite E. split; reflexivity.
Qed.
Lemma xfac_range T : 1 <= T < ls_glast - numeric_epsilon -> 0 <= xfac T <= 1001 / 1000.
Proof.
  intros H. destruct (xfac_at T H) as (i & l & I & L & _ & _ & _ & ->). destruct (xrow_bounds i ltac:(lia)) as [A _]. destruct (xrow_bounds (S i) ltac:(lia)) as [B _]. destruct (xrow_step i ltac:(lia)) as [S1 _].
  set (a := xrow i) in *. set (b := xrow (S i)) in *. clearbody a b. split; [|nra]. destruct (Rle_dec 0 l) as [P|N]; [nra|]. replace ((1 - l) * a + l * b) with (a - l * a + l * b) by ring. assert (0 <= - l * a) by nra. assert (- l * b <= 1 / 1000 * b) by (apply Rmult_le_compat_r; lra). lra.
Qed.
Lemma node_below (k : nat) (t : R) i : t < G200 (INR k) - numeric_epsilon -> G200 (INR i) - numeric_epsilon <= t -> (i < k)%nat.
Proof. intros H G. apply Nat.nle_gt. intros Q. assert (G200 (INR k) <= G200 (INR i)) by (apply gval_le; [lia|lra|apply le_INR; exact Q]). lra. Qed.
Lemma node30 : 11 <= G200 (INR 30).
Proof.
  unfold gval, gstep. replace (INR 200) with 200 by (rewrite INR_IZR_INZ; reflexivity). replace (INR 30) with 30 by (rewrite INR_IZR_INZ; reflexivity). assert (LN : 23 / 10 <= LN10_ (F:=R)) by (unfold LN10_; numR; dec_norm; lra).
  pose proof (ln_between 11 1 2397000 2398000 ltac:(vm_compute; reflexivity)) as L. replace (11 / 1) with 11 in L by field. rewrite <- (exp_ln 11) by lra. apply exp_mono. lra.
Qed.
Lemma node139_nat : 59999 < G200 (INR 139).
Proof.
  pose proof exp_node139 as E. unfold gval, gstep. replace (INR 200) with 200 by (rewrite INR_IZR_INZ; reflexivity). replace (INR 139) with 139 by (rewrite INR_IZR_INZ; reflexivity).
  assert (LN : 23 / 10 <= LN10_ (F:=R)) by (unfold LN10_; numR; dec_norm; lra). apply Rlt_le_trans with 60000; [lra|]. eapply Rle_trans; [exact E|]. apply exp_mono. lra.
Qed.
Lemma xfac_first T : T <= 104 / 10 -> precalculated_lindhard_X (proton_at T) = Ok (xfac T) /\ 987 / 1000 <= xfac T <= 10001 / 10000.
Proof.
  intros H. destruct (Rlt_le_dec T 1) as [Q|Q]; [destruct (xfac_one T Q) as [E EQ]; split; [exact E|rewrite EQ; lra]|]. pose proof glast_high as GH. pose proof eps_small as ES. destruct (xfac_at T ltac:(lra)) as (i & l & I & L & [B _] & _ & E & EQ). split; [exact E|]. rewrite EQ.
  pose proof node30 as N. assert (I2 : (i < 30)%nat) by (apply (node_below 30 T); [lra|exact B]). destruct (xrow_bounds i ltac:(lia)) as (A1 & _ & A2). destruct (xrow_bounds (S i) ltac:(lia)) as (B1 & _ & B2). specialize (A2 ltac:(lia)). specialize (B2 ltac:(lia)).
  pose proof (mix_bounds l (xrow i) (xrow (S i)) (988 / 1000) 1 L ltac:(lra) ltac:(lra)). lra.
Qed.
Lemma xfac_mid T : 1 <= T <= 49700 -> precalculated_lindhard_X (proton_at T) = Ok (xfac T) /\ 493 / 1000 <= xfac T <= 1001 / 1000.
Proof.
  intros H. pose proof glast_high as GH. pose proof eps_small as ES. destruct (xfac_at T ltac:(lra)) as (i & l & I & L & [B _] & _ & E & EQ). split; [exact E|]. rewrite EQ.
  pose proof node139_nat as N. assert (I2 : (i < 139)%nat) by (apply (node_below 139 T); [lra|exact B]). destruct (xrow_bounds i ltac:(lia)) as (A1 & A2 & _). destruct (xrow_bounds (S i) ltac:(lia)) as (B1 & B2 & _). specialize (A2 ltac:(lia)). specialize (B2 ltac:(lia)).
  pose proof (mix_bounds l (xrow i) (xrow (S i)) (494 / 1000) 1 L ltac:(lra) ltac:(lra)). lra.
Qed.
Lemma xfac_step x z : 1 <= x -> x <= z -> z <= 104 / 100 * x -> z <= 49700 -> within (10001 / 10000) (1037 / 1000) (xfac x) (xfac z).
Proof.
  intros X XZ ZX ZM. destruct (xfac_mid x ltac:(lra)) as [_ PX]. destruct (xfac_mid z ltac:(lra)) as [_ PZ]. split; [lra|]. split; [lra|]. clear PX PZ.
  pose proof glast_high as GH. pose proof eps_small as ES. pose proof eps_pos as EP. destruct (xfac_at x ltac:(lra)) as (i & l & I & L & [B1 B2] & BD & _ & ->). destruct (xfac_at z ltac:(lra)) as (j & m & J & M & [C1 C2] & CD & _ & ->).
  pose proof node139_nat as N. assert (I2 : (i < 139)%nat) by (apply (node_below 139 x); [lra|exact B1]). assert (J2 : (j < 139)%nat) by (apply (node_below 139 z); [lra|exact C1]).
  assert (GM : forall a b : nat, (a <= b)%nat -> G200 (INR a) <= G200 (INR b)) by (intros a b Q; apply gval_le; [lia|lra|apply le_INR; exact Q]).
  assert (RT : forall s, 1 <= G200 s -> 106 / 100 * G200 s < G200 (s + 1)).
  { intros s S1. pose proof (gval_ratio 200 0 7 s) as G. assert (GE : G200 (s + 1) = exp (LN10_ * gstep 200 0 7) * G200 s) by (rewrite <- G; field; lra). rewrite GE. assert (107 / 100 <= exp (LN10_ * gstep 200 0 7)).
    { eapply Rle_trans; [|apply exp_ineq1_le]. unfold gstep. replace (INR 200) with 200 by (rewrite INR_IZR_INZ; reflexivity). assert (LN : 23 / 10 <= LN10_ (F:=R)) by (unfold LN10_; numR; dec_norm; lra). lra. }
    nra. }
  assert (G1 : forall a : nat, 1 <= G200 (INR a)).
  { intros a. replace 1 with (G200 (INR 0)) by (cbn [INR]; unfold gval; rewrite Rmult_0_l, Rplus_0_l, Rmult_0_r; apply exp_0). apply GM. lia. }
  assert (JI : (j <= i + 1)%nat).
  { apply Nat.nlt_ge. intros Q. pose proof (GM (S (S i)) j ltac:(lia)) as H. rewrite S_INR in H. pose proof (RT (INR (S i)) (G1 _)) as R1. rewrite S_INR in R1, H. specialize (G1 (S i)). rewrite S_INR in G1. set (g := G200 (INR i + 1)) in *. lra. }
  assert (IJ : (i <= j + 1)%nat).
  { apply Nat.nlt_ge. intros Q. pose proof (GM (S (S j)) i ltac:(lia)) as H. rewrite !S_INR in H. pose proof (RT (INR (S j)) (G1 _)) as R1. rewrite S_INR in R1. specialize (G1 (S j)). rewrite S_INR in G1. set (g := G200 (INR j + 1)) in *. lra. }
  destruct (xrow_step i ltac:(lia)) as [_ S1]. specialize (S1 ltac:(lia)). destruct (xrow_step j ltac:(lia)) as [_ S2]. specialize (S2 ltac:(lia)). destruct (xrow_bounds i ltac:(lia)) as (A1 & A2 & _). specialize (A2 ltac:(lia)).
  assert (Q : j = i \/ j = S i \/ i = S j) by lia. pose proof (RT (INR i) (G1 i)) as RI. pose proof (RT (INR j) (G1 j)) as RJ. pose proof (G1 i) as GI. pose proof (G1 j) as GJ. clear RT G1 GM JI IJ N. destruct Q as [->|[->| ->]].
  - assert (LM : l <= m) by (set (g := G200 (INR i)) in *; set (g1 := G200 (INR i + 1)) in *; clearbody g g1; nra). set (a := xrow i) in *. set (b := xrow (S i)) in *. clearbody a b.
    replace ((1 - m) * a + m * b) with (a - m * (a - b)) by ring. replace ((1 - l) * a + l * b) with (a - l * (a - b)) by ring. assert (l * (a - b) <= m * (a - b)) by (apply Rmult_le_compat_r; lra). assert (m * (a - b) <= a - b) by nra. assert (- (1 / 1000) * (a - b) <= l * (a - b)) by (apply Rmult_le_compat_r; lra). split; lra.
  - set (a := xrow i) in *. set (b := xrow (S i)) in *. set (d := xrow (S (S i))) in *. clearbody a b d. replace ((1 - m) * b + m * d) with (b - m * (b - d)) by ring. replace ((1 - l) * a + l * b) with (a - l * (a - b)) by ring.
    assert (m * (b - d) <= b - d) by nra. assert (- (1 / 1000) * (b - d) <= m * (b - d)) by (apply Rmult_le_compat_r; lra). assert (- (1 / 1000) * (a - b) <= l * (a - b)) by (apply Rmult_le_compat_r; lra). assert (l * (a - b) <= a - b) by nra. split; lra.
  - (* both just below a grid energy *)
    rewrite S_INR in *. assert (LN : l < 0) by (set (g := G200 (INR j + 1)) in *; set (g1 := G200 (INR j + 1 + 1)) in *; clearbody g g1; nra).
    assert (MN : 1 - m <= 1 / 1000).
    { set (g := G200 (INR j)) in *. set (g1 := G200 (INR j + 1)) in *. assert (CG : (1 - m) * (g1 - g) <= numeric_epsilon) by lra. assert (6 / 100 <= g1 - g) by lra. clearbody g g1. nra. }
    set (a := xrow j) in *. set (b := xrow (S j)) in *. set (d := xrow (S (S j))) in *. clearbody a b d. replace ((1 - m) * a + m * b) with (b + (1 - m) * (a - b)) by ring. replace ((1 - l) * b + l * d) with (b - l * (b - d)) by ring.
    assert (0 <= (1 - m) * (a - b) <= 1 / 1000 * (a - b)) by (split; [apply Rmult_le_pos; lra|apply Rmult_le_compat_r; lra]). assert (- (1 / 1000) * (b - d) <= l * (b - d) <= 0) by (split; [apply Rmult_le_compat_r; lra|nra]). split; lra.
Qed.

(** ** The square of the velocity *)
Definition b2 (T : R) : R := / (1 + / eta2 T).
Lemma eta2_pos T : 0 < T -> 0 < eta2 T.
Proof. intros H. unfold eta2. assert (0 < T / u0) by (unfold u0; lra). nra. Qed.
Lemma b2_eta T : 0 < T -> 1 - 1 / ((1 + T / u0) * (1 + T / u0)) = b2 T.
Proof. intros H. pose proof (eta2_pos T H) as E. unfold b2. assert (G : (1 + T / u0) * (1 + T / u0) = 1 + eta2 T) by (unfold eta2; ring). rewrite G. field. lra. Qed.
Lemma b2_step x z : 0 < x -> x <= z -> z <= 104 / 100 * x -> within (104 / 100) 1 (b2 x) (b2 z).
Proof. intros X XZ ZX. apply within_inv. apply weight_within; assumption. Qed.
Lemma b2_low T : 0 < T <= 3 / 10 -> 0 < b2 T <= 645 / 1000000.
Proof.
  intros H. pose proof (eta2_pos T ltac:(lra)) as E. unfold b2. assert (EU : eta2 T <= 645 / 1000000) by (unfold eta2, u0; nra). set (e := eta2 T) in *. clearbody e. assert (I : 0 < / e) by (apply Rinv_0_lt_compat; exact E).
  split; [apply Rinv_0_lt_compat; lra|]. apply Rle_trans with (/ / e); [apply Rinv_le_contravar; lra|]. rewrite Rinv_inv. exact EU.
Qed.
Lemma b2_ten T : 10 <= T -> 211 / 10000 <= b2 T <= 1.
Proof.
  intros H. pose proof (eta2_low T H) as E. unfold b2. set (e := eta2 T) in *. clearbody e. assert (I : 0 < / e) by (apply Rinv_0_lt_compat; lra). split.
  - apply (Rmult_le_reg_r (1 + / e)); [lra|]. rewrite Rinv_l by lra. assert (/ e <= / (21586 / 1000000)) by (apply Rinv_le_contravar; lra). replace (/ (21586 / 1000000)) with (1000000 / 21586) in * by field. lra.
  - rewrite <- Rinv_1. apply Rinv_le_contravar; lra.
Qed.

(** ** The effective charge at every energy *)
Section Settings.
Variable c : Config R.
Hypothesis HZ : c_zeff c = z_none \/ c_zeff c = z_pierce_blann.
Lemma charge_form : (forall T, charge c T = 1) \/ exists k, 0 < k /\ forall T, 0 < T -> charge c T = 1 - exp (- (k * sqrt (b2 T))).
Proof.
  unfold charge, z_effective. destruct HZ as [Q|Q]; rewrite Q; [left; intros T; change (z_none =? z_none)%Z with true; cbv iota; reflexivity|right].
  assert (FS : 137 <= fine_structure_inverted (F:=R)) by (unfold fine_structure_inverted, fine_structure; numR; dec_norm; try lra; apply (Rmult_le_reg_r (72973525664 / 10000000000000)); lra).
  exists (95 / 100 * fine_structure_inverted (F:=R)). split; [lra|]. intros T H.
  change (z_pierce_blann =? z_none)%Z with false. change (z_pierce_blann =? z_pierce_blann)%Z with true. cbv iota zeta. cbn [proton_at pT pZ]. rewrite u0_eq. numR.
  replace (Rlit 1.0) with 1 by (dec_norm; lra). rewrite b2_eta by exact H.
  set (b := sqrt (b2 T)) in *. clearbody b. unfold z_eff_Pierce_Blann. numR.
  assert (O1 : Rpow_c 1 (Rlit 2.0 / Rlit 3.0) = 1) by (rewrite Rpow_pos by lra; unfold Rpower; rewrite ln_1, Rmult_0_r; apply exp_0). rewrite O1.
  set (f := fine_structure_inverted (F:=R)) in *. clearbody f.
  replace (Rlit (-0.95) * f * b / 1) with (- (95 / 100 * f * b)) by (dec_norm; field). replace (Rlit 1.0) with 1 by (dec_norm; lra). ring.
Qed.
Lemma charge2_step x z : 0 < x -> x <= z -> z <= 104 / 100 * x -> within (104 / 100) 1 (charge c x * charge c x) (charge c z * charge c z).
Proof.
  intros X XZ ZX. destruct charge_form as [F|(k & K & F)]; [rewrite !F; repeat split; lra|]. rewrite !F by lra. destruct (b2_step x z X XZ ZX) as (B1 & B2 & B3 & B4). set (q := sqrt (104 / 100)).
  assert (Q2 : q * q = 104 / 100) by (apply sqrt_sqrt; lra). assert (Q1 : 1 <= q) by (rewrite <- sqrt_1; apply sqrt_le_1_alt; lra).
  set (s := sqrt (b2 x)). set (t := sqrt (b2 z)). assert (S0 : 0 < s) by (apply sqrt_lt_R0; exact B1). assert (ST : s <= t) by (apply sqrt_le_1_alt; lra). assert (TS : t <= q * s) by (unfold t, q, s; rewrite <- sqrt_mult_alt by lra; apply sqrt_le_1_alt; exact B3).
  clearbody s t q. clear B1 B2 B3 B4 F. set (u := exp (- (k * s))). set (v := exp (- (k * t))).
  assert (U1 : u < 1) by (unfold u; rewrite <- exp_0; apply exp_increasing; assert (0 < k * s) by (apply Rmult_lt_0_compat; assumption); lra).
  assert (VU : v <= u) by (unfold u, v; apply exp_mono; assert (k * s <= k * t) by (apply Rmult_le_compat_l; lra); lra). assert (V0 : 0 < v) by apply exp_pos.
  assert (BN : 1 - v <= q * (1 - u)).
  { assert (W : exp (- (k * (q * s))) <= v) by (unfold v; apply exp_mono; assert (k * t <= k * (q * s)) by (apply Rmult_le_compat_l; lra); lra).
    assert (IQ : 0 < / q <= 1) by (split; [apply Rinv_0_lt_compat; lra|rewrite <- Rinv_1; apply Rinv_le_contravar; lra]).
    pose proof (bernoulli (/ q) (exp (- (k * (q * s)))) ltac:(lra) (exp_pos _)) as B. rewrite ln_exp in B. replace (/ q * - (k * (q * s))) with (- (k * s)) in B by (field; lra). fold u in B.
    set (w := exp (- (k * (q * s)))) in *. clearbody w. apply (Rmult_le_compat_l q) in B; [|lra]. replace (q * (1 + / q * (w - 1))) with (q + (w - 1)) in B by (field; lra). lra. }
  clearbody u v. assert (P1 : 0 < 1 - u) by lra. assert (P2 : 1 - u <= 1 - v) by lra. set (a := 1 - u) in *. set (b := 1 - v) in *. clearbody a b. clear U1 VU V0 S0 ST TS.
  assert (0 < b) by lra. split; [apply Rmult_lt_0_compat; exact P1|]. split; [apply Rmult_lt_0_compat; assumption|]. rewrite <- Q2. split.
  - replace (q * q * (a * a)) with ((q * a) * (q * a)) by ring. apply Rmult_le_compat; lra.
  - rewrite Rmult_1_l. apply Rmult_le_compat; lra.
Qed.

(** ** The correction term *)
Definition cor (T : R) : R :=
  if (c_calc c =? omega_atima)%Z then fmax (F:=R) (lit 24.89 * fpow (ofZ 7) (lit 1.2324) / (electron_mass * lit 1e6 * (beta_from_T T * beta_from_T T))
    * flog (lit 2.0 * electron_mass * lit 1e6 * (beta_from_T T * beta_from_T T) / (lit 33.05 * fpow (ofZ 7) (lit 1.6364))))%num (lit 0.0)%num else (lit 0)%num.
Lemma pow7 : 32 / 10 <= Rpower 7 (6364 / 10000) <= 482 / 100 /\ Rpower 7 (12324 / 10000) = 7 * Rpower 7 (6364 / 10000) * Rpower 7 (- (404 / 1000)) /\ Rpower 7 (16364 / 10000) = 7 * Rpower 7 (6364 / 10000) /\ 0 < Rpower 7 (- (404 / 1000)) <= 53 / 100.
Proof.
  pose proof (ln_between 7 1 1945910 1945911 ltac:(vm_compute; reflexivity)) as L. replace (7 / 1) with 7 in L by field.
  split; [|split; [|split]].
  - unfold Rpower. split.
    + pose proof (ln_between 32 10 1163150 1163152 ltac:(vm_compute; reflexivity)) as M. rewrite <- (exp_ln (32 / 10)) by lra. apply exp_mono. lra.
    + pose proof (bernoulli (6364 / 10000) 7 ltac:(lra) ltac:(lra)). lra.
  - replace (12324 / 10000) with (1 + (6364 / 10000 + - (404 / 1000))) by lra. rewrite !Rpower_plus, Rpower_1 by lra. ring.
  - replace (16364 / 10000) with (1 + 6364 / 10000) by lra. rewrite Rpower_plus, Rpower_1 by lra. reflexivity.
  - split; [apply exp_pos|]. rewrite Rpower_Ropp. unfold Rpower. pose proof (exp_ineq1_le (404 / 1000 * ln 7)) as E.
    assert (E2 : 100 / 53 <= exp (404 / 1000 * ln 7)).
    { replace (404 / 1000 * ln 7) with (202 / 1000 * ln 7 + 202 / 1000 * ln 7) by lra. rewrite exp_plus. pose proof (exp_ineq1_le (202 / 1000 * ln 7)) as E3. assert (139 / 100 <= exp (202 / 1000 * ln 7)) by lra. set (v := exp (202 / 1000 * ln 7)) in *. clearbody v. nra. }
    apply Rle_trans with (/ (100 / 53)); [apply Rinv_le_contravar; lra|right; field].
Qed.
Lemma cor_form : (forall T, cor T = 0) \/ exists a b, 0 < a <= 8 / 10 /\ 900 <= b <= 1381 /\ forall T, 0 < T -> cor T = a * (Rmax (ln (b * b2 T)) 0 / (b * b2 T)).
Proof.
  unfold cor. destruct (c_calc c =? omega_atima)%Z; [right|left; intros T; numR; dec_norm; lra]. destruct pow7 as (P1 & P2 & P3 & P4). set (g := Rpower 7 (6364 / 10000)) in *. set (h := Rpower 7 (- (404 / 1000))) in *. clearbody g h.
  exists (2 * (2489 / 100) / (3305 / 100) * h), (2 * 510998928 / 1000 / (3305 / 100 * (7 * g))). split; [lra|]. split.
  { split; (apply (Rmult_le_reg_r (3305 / 100 * (7 * g))); [lra|]); replace (2 * 510998928 / 1000 / (3305 / 100 * (7 * g)) * (3305 / 100 * (7 * g))) with (2 * 510998928 / 1000) by (field; lra); lra. }
  intros T H. rewrite fmaxR, beta_sq, b2_eta by lra. unfold electron_mass. numR. rewrite !Rpow_pos by lra. replace (Rlit 1.2324) with (12324 / 10000) by (dec_norm; lra). replace (Rlit 1.6364) with (16364 / 10000) by (dec_norm; lra). rewrite P2, P3.
  pose proof (eta2_pos T H) as E. assert (B : 0 < b2 T) by (apply Rinv_0_lt_compat; assert (0 < / eta2 T) by (apply Rinv_0_lt_compat; exact E); lra). set (y := b2 T) in *. clearbody y. dec_norm.
  replace (20 / 10 * (510998928 / 1000000000) * 1000000 * y / (3305 / 100 * (7 * g))) with (2 * 510998928 / 1000 / (3305 / 100 * (7 * g)) * y) by (field; lra).
  set (m := 2 * 510998928 / 1000 / (3305 / 100 * (7 * g)) * y). assert (M : 0 < m) by (unfold m; apply Rmult_lt_0_compat; [apply Rdiv_lt_0_compat; lra|exact B]).
  replace (2489 / 100 * (7 * g * h) / (510998928 / 1000000000 * 1000000 * y) * ln m) with (2 * (2489 / 100) / (3305 / 100) * h / m * ln m) by (unfold m; field; lra).
  assert (K : 0 < 2 * (2489 / 100) / (3305 / 100) * h / m) by (apply Rdiv_lt_0_compat; lra). set (k := 2 * (2489 / 100) / (3305 / 100) * h) in *. clearbody k. replace (k * (Rmax (ln m) 0 / m)) with (k / m * Rmax (ln m) 0) by (field; lra).
  replace (0 / 10) with 0 by field. set (a := k / m) in *. clearbody a. set (l := ln m). clearbody l. unfold Rmax. destruct (Rle_dec (a * l) 0) as [A1|A1], (Rle_dec l 0) as [A2|A2]; nra.
Qed.
(** between neighbouring energies *)
Lemma ratio_step v w : 0 < v -> v <= w -> w <= 104 / 100 * v ->
  0 <= Rmax (ln v) 0 / v <= 1 /\ Rmax (ln w) 0 / w <= Rmax (ln v) 0 / v + 4 / 100 * Rmin 1 (/ w) /\ Rmax (ln v) 0 / v <= 104 / 100 * (Rmax (ln w) 0 / w).
Proof.
  intros V VW WV. assert (W0 : 0 < w) by lra. assert (LE : ln v <= v) by (pose proof (exp_ineq1_le (ln v)) as H; rewrite exp_ln in H by exact V; lra).
  assert (LM : ln v <= ln w) by (destruct VW as [Q|<-]; [left; apply ln_increasing; assumption|right; reflexivity]).
  assert (LW : ln w <= ln v + 4 / 100).
  { apply Rle_trans with (ln (104 / 100 * v)); [destruct WV as [Q|<-]; [left; apply ln_increasing; assumption|right; reflexivity]|]. rewrite ln_mult by lra. pose proof (exp_ineq1_le (ln (104 / 100))) as H. rewrite exp_ln in H by lra. lra. }
  pose proof (Rmax_r (ln v) 0) as M0. pose proof (Rmax_l (ln v) 0) as M1. pose proof (Rmax_r (ln w) 0) as N0. pose proof (Rmax_l (ln w) 0) as N1.
  assert (MM : Rmax (ln v) 0 <= Rmax (ln w) 0) by (apply Rmax_lub; lra). assert (MU : Rmax (ln v) 0 <= v) by (apply Rmax_lub; lra). assert (NW : Rmax (ln w) 0 <= Rmax (ln v) 0 + 4 / 100) by (apply Rmax_lub; lra).
  assert (W1 : Rmax (ln w) 0 = 0 \/ 1 < w).
  { destruct (Rle_lt_dec w 1) as [Q|Q]; [left; apply Rmax_right; rewrite <- ln_1; destruct Q as [Q|Q]; [left; apply ln_increasing; assumption|right; rewrite Q; reflexivity]|right; exact Q]. }
  set (p := Rmax (ln v) 0) in *. set (q := Rmax (ln w) 0) in *. clearbody p q. assert (IV : 0 < / v) by (apply Rinv_0_lt_compat; exact V). assert (IW : 0 < / w) by (apply Rinv_0_lt_compat; exact W0).
  assert (IL : / w <= / v) by (apply Rinv_le_contravar; lra). assert (IU : / v <= 104 / 100 * / w) by (apply (Rmult_le_reg_r (v * w)); [apply Rmult_lt_0_compat; assumption|]; replace (/ v * (v * w)) with w by (field; lra); replace (104 / 100 * / w * (v * w)) with (104 / 100 * v) by (field; lra); exact WV).
  unfold Rdiv at 1 2 3 4 5 6. repeat split.
  - apply Rmult_le_pos; lra.
  - apply (Rmult_le_reg_r v); [exact V|]. rewrite Rmult_assoc, Rinv_l by lra. lra.
  - destruct W1 as [-> |W1]; [assert (0 <= p * / v) by (apply Rmult_le_pos; lra); assert (0 <= Rmin 1 (/ w)) by (apply Rmin_glb; lra); lra|].
    rewrite Rmin_right by (rewrite <- Rinv_1; apply Rinv_le_contravar; lra). apply Rle_trans with ((p + 4 / 100) * / w); [apply Rmult_le_compat_r; lra|]. assert (p * / w <= p * / v) by (apply Rmult_le_compat_l; lra). lra.
  - replace (104 / 100 * (q / w)) with (q * (104 / 100 * / w)) by (unfold Rdiv; ring). apply Rmult_le_compat; lra.
Qed.
Lemma cor_range T : 0 < T -> 0 <= cor T <= 8 / 10 /\ (T <= 3 / 10 -> cor T = 0).
Proof.
  intros H. destruct cor_form as [->|(a & b & A & B & F)]; [split; [lra|reflexivity]|]. rewrite F by exact H. destruct (b2_step T T H ltac:(lra) ltac:(lra)) as (B0 & _). assert (V : 0 < b * b2 T) by (apply Rmult_lt_0_compat; lra).
  destruct (ratio_step (b * b2 T) (b * b2 T) V ltac:(lra) ltac:(lra)) as (P & _). split; [set (q := Rmax (ln (b * b2 T)) 0 / (b * b2 T)) in *; clearbody q; nra|]. intros L. pose proof (b2_low T ltac:(lra)) as [_ BL].
  assert (V1 : b * b2 T < 1) by nra. rewrite Rmax_right; [field; lra|]. rewrite <- ln_1. left. apply ln_increasing; assumption.
Qed.
Lemma cor_step x z : 0 < x -> x <= z -> z <= 104 / 100 * x -> cor z <= cor x + 32 / 1000 /\ (10 <= x -> cor z <= cor x + 2 / 1000) /\ cor x <= 104 / 100 * cor z.
Proof.
  intros X XZ ZX. destruct cor_form as [F|(a & b & A & B & F)]; [rewrite !F; repeat split; lra|]. rewrite !F by lra. destruct (b2_step x z X XZ ZX) as (B1 & B2 & B3 & B4).
  assert (V : 0 < b * b2 x) by (apply Rmult_lt_0_compat; lra). assert (VW : b * b2 x <= b * b2 z) by (apply Rmult_le_compat_l; lra). assert (WV : b * b2 z <= 104 / 100 * (b * b2 x)) by (replace (104 / 100 * (b * b2 x)) with (b * (104 / 100 * b2 x)) by ring; apply Rmult_le_compat_l; lra).
  destruct (ratio_step _ _ V VW WV) as (P0 & P1 & P2). assert (TEN : 10 <= x -> / (b * b2 z) <= 1 / 18).
  { intros T10. destruct (b2_ten z ltac:(lra)) as [B5 _]. replace (1 / 18) with (/ 18) by field. apply Rinv_le_contravar; [lra|]. nra. }
  pose proof (Rmin_l 1 (/ (b * b2 z))) as M1. pose proof (Rmin_r 1 (/ (b * b2 z))) as M2. set (m := Rmin 1 (/ (b * b2 z))) in *. set (p := Rmax (ln (b * b2 x)) 0 / (b * b2 x)) in *. set (q := Rmax (ln (b * b2 z)) 0 / (b * b2 z)) in *. clearbody m p q.
  assert (AQ : a * q <= a * p + 4 / 100 * (a * m)) by (replace (a * p + 4 / 100 * (a * m)) with (a * (p + 4 / 100 * m)) by ring; apply Rmult_le_compat_l; lra). split; [|split].
  - assert (a * m <= a * 1) by (apply Rmult_le_compat_l; lra). lra.
  - intros T10. specialize (TEN T10). assert (a * m <= a * (1 / 18)) by (apply Rmult_le_compat_l; lra). lra.
  - replace (104 / 100 * (a * q)) with (a * (104 / 100 * q)) by ring. apply Rmult_le_compat_l; lra.
Qed.

(** ** The straggling of Firsov *)
Definition firsov (T : R) : R := energy_straggling_firsov (F:=R) 1 T 7 14.
Lemma firsov_form : exists k, 413 <= k /\ forall T, 0 < T -> firsov T = k * b2 T.
Proof.
  assert (FS : 0 < fine_structure (F:=R) <= 73 / 10000) by (unfold fine_structure; numR; dec_norm; lra). unfold firsov, energy_straggling_firsov. cbv zeta. set (f := fine_structure (F:=R)) in *. clearbody f.
  assert (P : 64 <= Rpower 8 (8 / 3)).
  { apply Rle_trans with (Rpower 8 (INR 2)); [rewrite Rpower_pow by lra; cbn [pow]; lra|]. apply Rle_Rpower; [lra|]. cbn [INR]. lra. }
  exists (48184 / 10000000 * Rpower 8 (8 / 3) / 14 / f / f). split.
  - assert (I : 1000 / 73 * 10 <= / f) by (replace (1000 / 73 * 10) with (/ (73 / 10000)) by field; apply Rinv_le_contravar; lra). unfold Rdiv at 1 2. set (i := / f) in *. clearbody i. set (u := Rpower 8 (8 / 3)) in *. clearbody u.
    assert (Q : 48184 / 10000000 * 64 / 14 <= 48184 / 10000000 * u / 14) by lra. set (v := 48184 / 10000000 * u / 14) in *. clearbody v. rewrite Rmult_assoc. apply Rle_trans with (48184 / 10000000 * 64 / 14 * ((1000 / 73 * 10) * (1000 / 73 * 10))); [lra|].
    apply Rmult_le_compat; [lra|lra|exact Q|]. apply Rmult_le_compat; lra.
  - intros T H. rewrite gamma_R. numR. replace (Rlit 1.0) with 1 by (dec_norm; lra). rewrite b2_eta by exact H. replace (1 + 7) with 8 by ring. rewrite Rpow_pos by lra. replace (Rlit 8.0 / Rlit 3.0) with (8 / 3) by (dec_norm; lra). set (u := Rpower 8 (8 / 3)). set (b := b2 T). clearbody u b. dec_norm. field. lra.
Qed.
Lemma firsov_step x z : 0 < x -> x <= z -> z <= 104 / 100 * x -> within (104 / 100) 1 (firsov x) (firsov z).
Proof. intros X XZ ZX. destruct firsov_form as (k & K & F). rewrite !F by lra. apply within_scale; [lra|]. apply b2_step; assumption. Qed.
Lemma firsov_ten T : 10 <= T -> 8 <= firsov T.
Proof. intros H. destruct firsov_form as (k & K & F). rewrite F by lra. pose proof (b2_ten T H) as [B _]. nra. Qed.

(** ** The variance *)
Definition f0 : R := domega2dx_constant * 7 / 14.
Lemma f0_range : 78 / 1000 <= f0 <= 79 / 1000.
Proof. unfold f0, domega2dx_constant. rewrite dedx_constant_val. unfold electron_mass. numR. dec_norm. lra. Qed.
Definition first (T : R) : R := f0 * ((charge c T * charge c T) * (xfac T * (1 + eta2 T) + cor T)).
Definition omega (T : R) : R := if Rlt_dec T 30 then Rmin (first T) (firsov T) else first T.
Lemma omega_value rho th T : 0 < T -> precalculated_lindhard_X (F:=R) (proton_at T) = Ok (xfac T) -> domega2dx (F:=R) (proton_at T) (gas rho th) c = Ok (omega T).
Proof.
  intros H E. unfold domega2dx. cbn [m_atoms gas ofold]. assert (V : dedx_variance (F:=R) (proton_at T) nitrogen c = Ok (omega T)).
  { unfold dedx_variance. cbv zeta. rewrite E. cbn [bind proton_at pT pZ nitrogen tZ tA]. fold (proton_at T). fold nitrogen. fold (charge c T). fold (cor T). fold (firsov T). rewrite gamma_R.
    replace (ipow (charge c T) 2) with (charge c T * charge c T) by (unfold ipow; cbn; numR; dec_norm; ring). numR. fold (firsov T). replace ((1 + T / u0) * (1 + T / u0)) with (1 + eta2 T) by (unfold eta2; ring). apply f_equal. replace (Rlit 30.0) with 30 by (dec_norm; lra).
    assert (FF : domega2dx_constant * (charge c T * charge c T) * 7 / 14 * (xfac T * (1 + eta2 T) + cor T) = first T) by (unfold first, f0; field). rewrite FF, fminR. unfold omega.
    destruct (Rltb_spec T 30), (Rlt_dec T 30); try contradiction; reflexivity. }
  rewrite V. cbn [bind]. apply f_equal. unfold wfrac. cbn [nitrogen tstn gas m_M tA]. numR. replace (Rlit 0) with 0 by (dec_norm; lra). replace (Rlit 1.0) with 1 by (dec_norm; lra). destruct (Rltb_spec 1 1); [lra|]. field.
Qed.

(** between neighbouring energies *)
Lemma gsq_step x z k : 0 < x -> x <= z -> z <= 104 / 100 * x -> 816 / 10000 * eta2 x <= k -> within (1 + k) 1 (1 + eta2 x) (1 + eta2 z).
Proof.
  intros X XZ ZX K. destruct (eta2_step x z X XZ ZX) as [E1 E2]. pose proof (eta2_pos x X) as E0. set (e := eta2 x) in *. set (f := eta2 z) in *. clearbody e f. repeat split; try lra. assert (0 <= k * e) by (apply Rmult_le_pos; lra). lra.
Qed.
Lemma eta2_upper T t : 0 < T -> T <= t -> eta2 T <= t / u0 * (2 + t / u0).
Proof.
  intros H L. unfold eta2. pose proof u0_pos as U. assert (A : T / u0 <= t / u0) by (apply Rmult_le_compat_r; [left; apply Rinv_0_lt_compat; exact U|exact L]). assert (B : 0 < T / u0) by (apply pos_quot; assumption).
  set (a := T / u0) in *. set (b := t / u0) in *. clearbody a b. nra.
Qed.
Section Step.
  Variables x z : R.
  Hypothesis X : 0 < x.
  Hypothesis XZ : x <= z.
  Hypothesis ZX : z <= 104 / 100 * x.
  Lemma sum_step u k d a a' q q' r r' : within u d a a' -> within (1 + k) 1 q q' -> 0 <= k -> 0 <= r -> 0 <= r' -> d <= 104 / 100 -> r <= 104 / 100 * r' -> forall m h, r' <= r + m -> m <= h * (a * q) -> 0 <= u -> 1 <= u * (1 + k) + h -> within (u * (1 + k) + h) (104 / 100) (a * q + r) (a' * q' + r').
  Proof.
    intros A Q K R0 R1 D RR m h RM MH U1 U2. pose proof (within_mult _ _ _ _ _ _ _ _ A Q) as (P1 & P2 & P3 & P4). set (p := a * q) in *. set (p' := a' * q') in *. clearbody p p'. set (w := u * (1 + k)) in *. clearbody w.
    assert (d * 1 * p' <= 104 / 100 * p') by (apply Rmult_le_compat_r; lra). split; [lra|]. split; [lra|]. split; [|lra]. assert (0 <= (w + h - 1) * r) by (apply Rmult_le_pos; lra). lra.
  Qed.
  Lemma first_low : z <= 3 / 10 -> within (10401 / 10000) 1 (first x) (first z).
  Proof.
    intros ZL. unfold first. pose proof f0_range as F. apply within_scale; [lra|]. destruct (cor_range x X) as [_ CX]. destruct (cor_range z ltac:(lra)) as [_ CZ]. rewrite CX, CZ by lra. destruct (xfac_one x ltac:(lra)) as [_ ->]. destruct (xfac_one z ltac:(lra)) as [_ ->]. rewrite !Rmult_1_l, !Rplus_0_r.
    pose proof (eta2_upper x (3 / 10) X ltac:(lra)) as EU. replace (3 / 10 / u0 * (2 + 3 / 10 / u0)) with ((3 / 10 / u0) * 2 + (3 / 10 / u0) * (3 / 10 / u0)) in EU by ring. assert (E1 : eta2 x <= 65 / 100000) by (unfold u0 in EU; lra).
    apply (within_weaken (104 / 100 * (1 + 9 / 100000)) (1 * 1)); [lra|lra|]. apply within_mult; [apply charge2_step; assumption|]. apply gsq_step; try assumption. lra.
  Qed.
  Lemma xfac_close : z <= 104 / 10 -> within (10001 / 10000) (104 / 100) (xfac x) (xfac z).
  Proof.
    intros ZT. destruct (xfac_first x ltac:(lra)) as [_ A]. destruct (xfac_first z ltac:(lra)) as [_ B]. split; [lra|]. split; [lra|]. split; [|lra]. destruct (Rlt_le_dec x 1) as [Q|Q]; [destruct (xfac_one x Q) as [_ ->]; lra|].
    destruct (xfac_step x z Q XZ ZX ltac:(lra)) as (_ & _ & S1 & _). exact S1.
  Qed.
  Lemma first_mid : x <= 10 -> within (1076 / 1000) (104 / 100) (first x) (first z).
  Proof.
    intros XT. unfold first. pose proof f0_range as F. apply within_scale; [lra|]. destruct (cor_range x X) as [CX _]. destruct (cor_range z ltac:(lra)) as [CZ _]. destruct (cor_step x z X XZ ZX) as (C1 & _ & C2).
    pose proof (eta2_upper x 10 X XT) as EU. assert (E1 : eta2 x <= 217 / 10000) by (unfold u0 in EU; lra). pose proof (eta2_pos x X) as E0. destruct (xfac_first x ltac:(lra)) as [_ A].
    apply (within_weaken (104 / 100 * (10001 / 10000 * (1 + 18 / 10000) + 325 / 10000)) (1 * (104 / 100))); [lra|lra|]. apply within_mult; [apply charge2_step; assumption|].
    apply (sum_step _ _ (104 / 100)) with (m := 32 / 1000); try lra; try exact C2; [apply xfac_close; lra|apply gsq_step; try assumption; lra|]. set (a := xfac x) in *. set (e := eta2 x) in *. clearbody a e. assert (987 / 1000 <= a * (1 + e)) by nra. lra.
  Qed.
  Lemma first_both : 10 < x -> x < 30 -> within (1016 / 1000) (10463 / 10000) (first x) (first z).
  Proof.
    intros XT X3. unfold first. pose proof f0_range as F. apply within_scale; [lra|]. destruct (cor_range x X) as [CX _]. destruct (cor_range z ltac:(lra)) as [CZ _]. destruct (cor_step x z X XZ ZX) as (_ & C1 & C2). specialize (C1 ltac:(lra)).
    pose proof (eta2_upper x 30 X ltac:(lra)) as EU. assert (E1 : eta2 x <= 66 / 1000) by (unfold u0 in EU; lra). pose proof (eta2_pos x X) as E0. destruct (xfac_mid x ltac:(lra)) as [_ A].
    apply (within_weaken (100603 / 100000 * (10001 / 10000 * (1 + 539 / 100000) + 41 / 10000)) (100603 / 100000 * (104 / 100))); [lra|lra|]. apply within_mult; [apply charge2_close; [exact HZ|lra|exact XZ]|].
    apply (sum_step _ _ (1037 / 1000)) with (m := 2 / 1000); try lra; try exact C2; [apply xfac_step; lra|apply gsq_step; try assumption; lra|]. set (a := xfac x) in *. set (e := eta2 x) in *. clearbody a e. assert (493 / 1000 <= a * (1 + e)) by nra. lra.
  Qed.
  (** the bracket of the variance divided by the square of the Lorentz factor *)
  Definition hh (T : R) : R := xfac T + cor T / (1 + eta2 T).
  Lemma hh_step : 10 <= x -> z <= 49700 -> within (10042 / 10000) (1125 / 1000) (hh x) (hh z).
  Proof.
    intros XT ZM. unfold hh. destruct (cor_range x X) as [CX _]. destruct (cor_range z ltac:(lra)) as [CZ _]. destruct (cor_step x z X XZ ZX) as (_ & C1 & C2). specialize (C1 XT).
    destruct (xfac_mid x ltac:(lra)) as [_ A]. destruct (xfac_step x z ltac:(lra) XZ ZX ZM) as (_ & A1 & A2 & A3). destruct (eta2_step x z X XZ ZX) as [E1 E2]. pose proof (eta2_pos x X) as E0.
    set (a := xfac x) in *. set (b := xfac z) in *. set (p := cor x) in *. set (q := cor z) in *. set (e := eta2 x) in *. set (f := eta2 z) in *. clearbody a b p q e f.
    assert (I1 : / (1 + f) <= / (1 + e) <= 1) by (split; [apply Rinv_le_contravar; lra|rewrite <- Rinv_1; apply Rinv_le_contravar; lra]). assert (I0 : 0 < / (1 + f)) by (apply Rinv_0_lt_compat; lra).
    assert (I2 : / (1 + e) <= 10816 / 10000 * / (1 + f)) by (apply (Rmult_le_reg_r ((1 + e) * (1 + f))); [apply Rmult_lt_0_compat; lra|]; replace (/ (1 + e) * ((1 + e) * (1 + f))) with (1 + f) by (field; lra); replace (10816 / 10000 * / (1 + f) * ((1 + e) * (1 + f))) with (10816 / 10000 * (1 + e)) by (field; lra); lra).
    change (p / (1 + e)) with (p * / (1 + e)). change (q / (1 + f)) with (q * / (1 + f)). set (i := / (1 + e)) in *. set (j := / (1 + f)) in *. clearbody i j.
    assert (PI0 : 0 <= p * i) by (apply Rmult_le_pos; lra). assert (QJ0 : 0 <= q * j) by (apply Rmult_le_pos; lra).
    assert (Q1 : q * j <= p * i + 2 / 1000) by (apply Rle_trans with ((p + 2 / 1000) * i); [apply Rmult_le_compat; lra|]; assert (2 / 1000 * i <= 2 / 1000) by lra; lra).
    assert (Q2 : p * i <= (104 / 100 * q) * (10816 / 10000 * j)) by (apply Rmult_le_compat; lra). replace ((104 / 100 * q) * (10816 / 10000 * j)) with (1124864 / 1000000 * (q * j)) in Q2 by field.
    split; [lra|]. split; [lra|]. split; lra.
  Qed.
End Step.
Lemma first_firsov T : 10 <= T < 30 -> 0 < first T <= firsov T.
Proof.
  intros H. pose proof (firsov_ten T ltac:(lra)) as FT. unfold first. pose proof f0_range as F. pose proof (charge_range c HZ T ltac:(lra)) as C. destruct (cor_range T ltac:(lra)) as [CT _]. destruct (xfac_mid T ltac:(lra)) as [_ A]. pose proof (eta2_upper T 30 ltac:(lra) ltac:(lra)) as EU.
  assert (E1 : eta2 T <= 66 / 1000) by (unfold u0 in EU; lra). pose proof (eta2_pos T ltac:(lra)) as E0. assert (C2 : 994 / 1000 <= charge c T * charge c T <= 1) by (split; nra). set (q := charge c T * charge c T) in *. set (a := xfac T) in *. set (e := eta2 T) in *. set (r := cor T) in *. set (f := f0) in *. clearbody q a e r f. clear C EU.
  assert (B : 0 < a * (1 + e) + r <= 2) by (split; nra). set (b := a * (1 + e) + r) in *. clearbody b. assert (B2 : 0 < q * b <= 2) by (split; nra). set (y := q * b) in *. clearbody y. split; [apply Rmult_lt_0_compat; lra|]. nra.
Qed.
Lemma omega_first T : 10 <= T -> omega T = first T.
Proof. intros H. unfold omega. destruct (Rlt_dec T 30) as [Q|Q]; [|reflexivity]. apply Rmin_left. apply first_firsov. lra. Qed.
Lemma omega_low x z : 0 < x -> x <= z -> z <= 104 / 100 * x -> z <= 3 / 10 -> within (10401 / 10000) 1 (omega x) (omega z).
Proof.
  intros X XZ ZX ZL. unfold omega. destruct (Rlt_dec x 30); [|lra]. destruct (Rlt_dec z 30); [|lra]. apply within_min; [apply first_low; assumption|]. apply (within_weaken (104 / 100) 1); [lra|lra|]. apply firsov_step; assumption.
Qed.
Lemma omega_mid x z : 0 < x -> x <= z -> z <= 104 / 100 * x -> x <= 10 -> within (1076 / 1000) (104 / 100) (omega x) (omega z).
Proof.
  intros X XZ ZX XT. unfold omega. destruct (Rlt_dec x 30); [|lra]. destruct (Rlt_dec z 30); [|lra]. apply within_min; [apply first_mid; assumption|]. apply (within_weaken (104 / 100) 1); [lra|lra|]. apply firsov_step; assumption.
Qed.

(** ** The integrand of the straggling table up to 49700 MeV *)
Section Integrand.
  Variables rho th : R.
  Definition integrand (T : R) : R := omega T / stop c rho th T ^ 3.
  Lemma integrand_fast T : 30 <= T -> inside c T -> T <= 49700 -> exists n, 0 < n <= 1 / 1000 /\
    integrand T = f0 / (dedx_constant / 2) ^ 3 * ((/ (charge c T * charge c T) * / (charge c T * charge c T)) * (eta2 T * (b2 T * b2 T)) * (hh T * (/ bracket c T ^ 3 * / (1 + n) ^ 3))).
  Proof.
    intros T3 IN TM. destruct (stop_high c HZ rho th T T3 IN TM) as (n & E & N). exists n. split; [exact N|]. unfold integrand. rewrite omega_first, E by lra. unfold first, high, hh, b2.
    pose proof (charge_range c HZ T ltac:(lra)) as C. pose proof (eta2_pos T ltac:(lra)) as E0. pose proof (bracket_close c HZ T T ltac:(lra) ltac:(lra) ltac:(lra) IN TM) as (B0 & _). rewrite dedx_constant_val.
    set (q := charge c T) in *. set (e := eta2 T) in *. set (b := bracket c T) in *. set (a := xfac T). set (r := cor T). set (f := f0). clearbody q e b a r f. clear E IN. field. repeat split; lra.
  Qed.
  Lemma integrand_step x z : 0 < x -> x <= z -> z <= 104 / 100 * x -> z <= 49700 -> (10 < z -> inside c z) -> within (13 / 10) (13 / 10) (integrand x) (integrand z).
  Proof.
    intros X XZ ZX ZM IN. destruct (Rle_dec z (3 / 10)) as [A|A]; [|destruct (Rle_dec x 10) as [B|B]; [|destruct (Rlt_dec x 30) as [D|D]]].
    - pose proof (within_cube _ _ _ _ (within_near _ _ _ (stop_below c x z X XZ ZX rho th A))) as SC. eapply within_weaken; [| |exact (within_div _ _ _ _ _ _ _ _ (omega_low x z X XZ ZX A) SC)]; lra.
    - pose proof (within_cube _ _ _ _ (within_near _ _ _ (stop_mid c HZ x z X XZ ZX ZM IN rho th ltac:(lra) B))) as SC. eapply within_weaken; [| |exact (within_div _ _ _ _ _ _ _ _ (omega_mid x z X XZ ZX B) SC)]; lra.
    - pose proof (within_cube _ _ _ _ (stop_both c HZ x z X XZ ZX ZM IN rho th ltac:(lra) D)) as SC. unfold integrand. rewrite !omega_first by lra. eapply within_weaken; [| |exact (within_div _ _ _ _ _ _ _ _ (first_both x z X XZ ZX ltac:(lra) D) SC)]; lra.
    - specialize (IN ltac:(lra)). pose proof (inside_x c x z ltac:(lra) XZ IN) as INX. destruct (integrand_fast x ltac:(lra) INX ltac:(lra)) as (n & N & ->). destruct (integrand_fast z ltac:(lra) IN ZM) as (m & M & ->).
      pose proof f0_range as F. apply within_scale; [rewrite dedx_constant_val; apply Rdiv_lt_0_compat; [lra|apply pow_lt; lra]|].
      pose proof (within_inv _ _ _ _ (charge2_close c HZ x z ltac:(lra) XZ)) as C. pose proof (b2_step x z X XZ ZX) as B2. assert (E : within (10816 / 10000) 1 (eta2 x) (eta2 z)) by (destruct (eta2_step x z X XZ ZX) as [E1 E2]; pose proof (eta2_pos x X); repeat split; lra).
      pose proof (within_inv _ _ _ _ (within_cube _ _ _ _ (bracket_close c HZ x z ltac:(lra) XZ ZX IN ZM))) as BC.
      assert (NC : within (1001 / 1000) (1001 / 1000) (1 + n) (1 + m)) by (repeat split; lra). apply within_cube, within_inv in NC.
      eapply within_weaken; [| |exact (within_mult _ _ _ _ _ _ _ _ (within_mult _ _ _ _ _ _ _ _ (within_mult _ _ _ _ _ _ _ _ C C) (within_mult _ _ _ _ _ _ _ _ E (within_mult _ _ _ _ _ _ _ _ B2 B2))) (within_mult _ _ _ _ _ _ _ _ (hh_step x z X XZ ZX ltac:(lra) ZM) (within_mult _ _ _ _ _ _ _ _ BC NC)))]; lra.
  Qed.
End Integrand.
End Settings.
