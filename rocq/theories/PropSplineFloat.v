(** * Property C20 in binary64: the spline passes exactly through its data *)
From Flocq Require Import Core.
From Coq Require Import ZArith Reals List Bool Lra Lia Floats SpecFloat.
From Verif Require Import Num NumR NumF Structures EnergyTable Spline GridProofs PropTables Binary64 Binary64Num PropGridFloat.
Import ListNotations.
Local Open Scope R_scope.

(** the lookup of an energy of the grid finds it *)
Lemma increasing_F lm i j : exp_accurate lm -> (i < j < 600)%nat -> val (energyF lm i) * 1.037 < val (energyF lm j).
Proof.
  intros EX [H J]. induction j as [|j IH]; [lia|]. destruct (C18_binary64_increasing lm j EX ltac:(lia)) as [P Q]. replace 1.037 with (1037 / 1000) in * by lra.
  destruct (Nat.eq_dec i j) as [<-|N]; [exact Q|]. pose proof (IH ltac:(lia) ltac:(lia)). lra.
Qed.
Theorem C19_binary64_knots lm k : accurate lm -> (k < 600)%nat -> et_index (N:=NumF lm) (tableF lm) (energyF lm k) = Ok (Z.of_nat k).
Proof.
  intros AC K. pose proof AC as [EX _]. destruct (energyF_bounds lm k EX K) as (F & P & B). destruct (C19_binary64 lm (energyF lm k) AC F) as (_ & H9 & HI).
  assert (PK : 0 < val (energyF lm k)) by nra.
  destruct (Nat.eq_dec k 599) as [->|N]; [apply H9; lra|].
  assert (X0 : val (energyF lm 0) <= val (energyF lm k)).
  { destruct (Nat.eq_dec k 0) as [->|N0]; [lra|]. pose proof (increasing_F lm 0 k EX ltac:(lia)) as Q. replace 1.037 with (1037 / 1000) in Q by lra. destruct (energyF_bounds lm 0 EX ltac:(lia)) as (_ & P0 & B0). nra. }
  assert (X9 : val (energyF lm k) < val (energyF lm 599) * (1 - 1 / 10 ^ 11)).
  { pose proof (increasing_F lm k 599 EX ltac:(lia)) as Q. replace 1.037 with (1037 / 1000) in Q by lra. lra. }
  destruct (HI (conj X0 X9)) as (i & E & I & L & U). rewrite E. do 2 f_equal.
  destruct (Nat.lt_trichotomy i k) as [C|[C|C]]; [|exact C|]; exfalso.
  - destruct (Nat.eq_dec (S i) k) as [Q|Q]; [rewrite Q in U; lra|]. pose proof (increasing_F lm (S i) k EX ltac:(lia)) as W. replace 1.037 with (1037 / 1000) in W by lra.
    destruct (energyF_bounds lm (S i) EX ltac:(lia)) as (_ & PS & BS). nra.
  - pose proof (increasing_F lm k i EX ltac:(lia)) as W. replace 1.037 with (1037 / 1000) in W by lra. lra.
Qed.
Print Assumptions C19_binary64_knots.

(** products and sums with a zero are exact *)
Lemma mul_zero a h : fin a -> fin h -> val h = 0 -> fin (a * h) /\ val (a * h) = 0.
Proof.
  intros A H Z. destruct (mul_val a h A H) as [F V]; [rewrite Z, Rmult_0_r, Rabs_R0; apply bpow_ge_0|]. split; [exact F|]. now rewrite V, Z, Rmult_0_r, rnd_0.
Qed.
Lemma zero_add z y : fin z -> val z = 0 -> fin y -> Rabs (val y) <= big -> fin (z + y) /\ val (z + y) = val y.
Proof.
  intros Z V Y B. destruct (add_val z y Z Y) as [F W]; [now rewrite V, Rplus_0_l|]. split; [exact F|]. now rewrite W, V, Rplus_0_l, rnd_val.
Qed.

(** At every energy of the grid a spline over the library's grid returns its datum, without any rounding error, provided its coefficients are finite numbers. *)
Theorem C20_binary64 lm (s : spline float) k a b c y : accurate lm -> sp_table s = tableF lm -> (k < 600)%nat ->
  nth_error (sp_a s) k = Some a -> nth_error (sp_b s) k = Some b -> nth_error (sp_c s) k = Some c -> nth_error (sp_y s) k = Some y ->
  fin a -> fin b -> fin c -> fin y -> Rabs (val b) <= big -> Rabs (val c) <= big -> Rabs (val y) <= big ->
  exists r, spline_eval (N:=NumF lm) s (energyF lm k) = Ok r /\ fin r /\ val r = val y.
Proof.
  intros AC T K NA NB NC NY FA FB FC FY BB BC BY. pose proof AC as [EX _]. unfold spline_eval. rewrite T. rewrite (C19_binary64_knots lm k AC K). cbn [bind].
  change (Z.of_nat (et_n (tableF lm)) - 1)%Z with 599%Z. replace (Z.max (Z.of_nat k) 0) with (Z.of_nat k) by lia.
  rewrite (agetF lm (Z.of_nat k)), (agetF lm 0), (agetF lm 599) by lia. cbn [bind]. rewrite Nat2Z.id. change (Z.to_nat 0) with 0%nat. change (Z.to_nat 599) with 599%nat.
  destruct (energyF_bounds lm k EX K) as (F & P & B). destruct (energyF_bounds lm 0 EX ltac:(lia)) as (F0 & P0 & B0). destruct (energyF_bounds lm 599 EX ltac:(lia)) as (F9 & P9 & B9).
  assert (X0 : ~ val (energyF lm k) < val (energyF lm 0)).
  { destruct (Nat.eq_dec k 0) as [->|N0]; [lra|]. pose proof (increasing_F lm 0 k EX ltac:(lia)) as Q. replace 1.037 with (1037 / 1000) in Q by lra. nra. }
  assert (X9 : ~ val (energyF lm 599) < val (energyF lm k)).
  { destruct (Nat.eq_dec k 599) as [->|N9]; [lra|]. pose proof (increasing_F lm k 599 EX ltac:(lia)) as Q. replace 1.037 with (1037 / 1000) in Q by lra. nra. }
  cbn [fltb fsub fmul fadd NumF]. destruct (ltb_val _ _ F F0); [contradiction|]. destruct (ltb_val _ _ F9 F); [contradiction|].
  assert (G : forall A (l : list A) x, nth_error l k = Some x -> aget l (Z.of_nat k) = Ok x). { intros A l x H. apply aget_ok. split; [lia|]. now rewrite Nat2Z.id. }
  rewrite (G _ _ _ NA), (G _ _ _ NB), (G _ _ _ NC), (G _ _ _ NY). cbn [bind]. eexists. split; [reflexivity|].
  destruct (sub_val _ _ F F) as [FH VH]. { replace (val (energyF lm k) - val (energyF lm k)) with 0 by ring. rewrite Rabs_R0. apply bpow_ge_0. }
  replace (val (energyF lm k) - val (energyF lm k)) with 0 in VH by ring. rewrite rnd_0 in VH. set (h := (energyF lm k - energyF lm k)%float) in *.
  destruct (mul_zero a h FA FH VH) as [F1 V1]. destruct (zero_add _ b F1 V1 FB BB) as [F2 V2]. destruct (mul_zero _ h F2 FH VH) as [F3 V3]. destruct (zero_add _ c F3 V3 FC BC) as [F4 V4].
  destruct (mul_zero _ h F4 FH VH) as [F5 V5]. exact (zero_add _ y F5 V5 FY BY).
Qed.
Print Assumptions C20_binary64.

(** a spline with coefficients 1 and data 3 *)
Example C20_binary64_case : let s := mkSpline (tableF rounded_libm) (repeat 3%float 600) (repeat 1%float 600) (repeat 1%float 600) (repeat 1%float 600) 1%float 1%float in
  exists r, spline_eval (N:=NumF rounded_libm) s (energyF rounded_libm 5) = Ok r /\ fin r /\ val r = 3.
Proof.
  intros s. pose proof big_ge as BG. assert (F1 : fin 1%float) by (apply fin_SF; vm_compute; exact I). assert (F3 : fin 3%float) by (apply fin_SF; vm_compute; exact I).
  assert (V1 : val 1%float = 1). { rewrite val_SF. vm_compute Prim2SF. cbn [SFR Z.leb Z.compare Z.opp Z.pow Z.pow_pos Pos.iter Z.mul Pos.mul]. lra. }
  assert (V3 : val 3%float = 3). { rewrite val_SF. vm_compute Prim2SF. cbn [SFR Z.leb Z.compare Z.opp Z.pow Z.pow_pos Pos.iter Z.mul Pos.mul]. lra. }
  destruct (C20_binary64 rounded_libm s 5 1%float 1%float 1%float 3%float rounded_accurate eq_refl ltac:(lia) eq_refl eq_refl eq_refl eq_refl F1 F1 F1 F3) as (r & E & F & V);
    [rewrite V1, Rabs_pos_eq; lra|rewrite V1, Rabs_pos_eq; lra|rewrite V3, Rabs_pos_eq; lra|]. exists r. rewrite <- V3. auto.
Qed.
