(** * Properties C18, C19, C25: the energy grids *)
From Coq Require Import ZArith Reals List Bool Lra Lia Floats.
From Verif Require Import Num NumR NumF Structures EnergyTable Spline Calculations DataLSa GridProofs InterpProofs
  BoundsProofs TotalProofs.
Import ListNotations.
Local Open Scope R_scope.

(** ** C18 *)

(** element i of the array *)
Definition at_ (t : EnergyTable R) (i : nat) : option R := nth_error (et_values t) i.

Theorem C18_grid n lmin lmax : (2 <= n)%nat -> lmin < lmax ->
  let t := et_make n lmin lmax in
  length (et_values t) = n /\
  at_ t 0 = Some (exp (LN10_ * lmin)) /\ at_ t (n - 1) = Some (exp (LN10_ * lmax)) /\
  (forall i v, at_ t i = Some v -> 0 < v) /\
  exists ratio, 1 < ratio /\
    forall i v w, at_ t i = Some v -> at_ t (S i) = Some w -> v < w /\ w = v * ratio.
Proof.
  intros Hn Hl. cbv zeta. unfold at_.
  assert (IN : forall i v, nth_error (et_values (et_make n lmin lmax)) i = Some v ->
                 (i < n)%nat /\ v = gval n lmin lmax (INR i)).
  { intros i v H. assert (i < n)%nat.
    { rewrite <- (et_values_length n lmin lmax). apply nth_error_Some. congruence. }
    rewrite et_nth in H by assumption. split; congruence. }
  split; [apply et_values_length|].
  split; [rewrite et_nth by lia; f_equal; exact (gfirst_val n lmin lmax)|].
  split.
  { rewrite et_nth by lia. f_equal. rewrite minus_INR by lia. cbn [INR].
    change (gval n lmin lmax (INR n - 1)) with (glast n lmin lmax). now apply glast_val. }
  split; [intros i v H; destruct (IN i v H) as [_ ->]; apply gval_pos|].
  exists (exp (LN10_ * gstep n lmin lmax)).
  assert (R1 : 1 < exp (LN10_ * gstep n lmin lmax)).
  { rewrite <- exp_0. apply exp_increasing. apply Rmult_lt_0_compat; [apply LN10_pos|now apply gstep_pos]. }
  split; [assumption|]. intros i v w Hv Hw. destruct (IN _ _ Hv) as [_ Ev], (IN _ _ Hw) as [_ Ew].
  rewrite S_INR in Ew.
  assert (W : w = v * exp (LN10_ * gstep n lmin lmax)).
  { rewrite Ev, Ew, <- (gval_ratio n lmin lmax (INR i)). field. apply Rgt_not_eq, gval_pos. }
  split; [|assumption]. rewrite Ev, Ew. apply gval_lt; [assumption|assumption|lra].
Qed.
Print Assumptions C18_grid.

(** the two grids of the library *)
Theorem C18_library :
  energy_table (F:=R) = et_make 600 (-3) 7 /\ ls_energy_table (F:=R) = et_make 200 0 7.
Proof. split; [apply energy_table_eq|apply ls_table_eq]. Qed.
Print Assumptions C18_library.

(** the arrays that compute their elements on access hold the same values *)
Theorem C18_computed_grid n lmin lmax i : (i < n)%nat ->
  at_ (et_make n lmin lmax) i = Some (lv_value (lv_make n lmin lmax) (Z.of_nat i)).
Proof.
  intros H. unfold at_. rewrite et_nth by assumption. f_equal. unfold gval, lv_value, lv_make. cbn [lv_min lv_step].
  numR. rewrite <- !INR_IZR_INZ. unfold gstep. replace (Rlit 1.0) with 1 by (dec_norm; lra). reflexivity.
Qed.
Print Assumptions C18_computed_grid.

Theorem C18_linear_grid n mn mx i : (2 <= n)%nat -> mn < mx ->
  let t := lin_make n mn mx in
  lin_value t 0 = mn /\ lin_value t (Z.of_nat n - 1) = mx /\
  lin_value t (i + 1) - lin_value t i = (mx - mn) / (INR n - 1) /\
  lin_value t i < lin_value t (i + 1).
Proof.
  intros Hn Hl. cbv zeta. unfold lin_make, lin_value. cbn [lin_min lin_step]. numR.
  destruct (Rleb_spec mx mn); [lra|]. pose proof (nR n Hn).
  rewrite plus_IZR, minus_IZR, <- INR_IZR_INZ.
  assert (0 < (mx - mn) / (INR n - 1)) by (apply Rdiv_lt_0_compat; lra).
  repeat split; try (field; lra). rewrite Rmult_plus_distr_r. lra.
Qed.
Print Assumptions C18_linear_grid.

Example C18_case : exists v w, at_ (et_make 600 (-3) 7) 0 = Some v /\ at_ (et_make 600 (-3) 7) 1 = Some w /\ v < w.
Proof.
  destruct (C18_grid 600 (-3) 7 ltac:(lia) ltac:(lra)) as (L & A & _ & _ & r & R1 & S).
  unfold at_ in *.
  destruct (nth_error (et_values (et_make 600 (-3) 7)) 1) as [w|] eqn:E.
  - exists (exp (LN10_ * -3)), w. split; [assumption|]. split; [reflexivity|]. now apply (S 0%nat).
  - apply nth_error_None in E. rewrite L in E. lia.
Qed.

(** ** C19 *)

(** what a bracket is *)
Definition first_of (t : EnergyTable R) (v : R) : Prop := at_ t 0 = Some v.
Definition last_of (t : EnergyTable R) (v : R) : Prop := at_ t (et_n t - 1) = Some v.
Definition brackets (t : EnergyTable R) (eps v : R) (i : Z) : Prop :=
  (0 <= i <= Z.of_nat (et_n t) - 2)%Z /\
  exists a b, at_ t (Z.to_nat i) = Some a /\ at_ t (Z.to_nat i + 1) = Some b /\ a - eps <= v < b.

Lemma at_gval n lmin lmax i : (i < n)%nat -> at_ (et_make n lmin lmax) i = Some (gval n lmin lmax (INR i)).
Proof. apply et_nth. Qed.

Theorem C19_lookup n lmin lmax v first last :
  (2 <= n)%nat -> (Z.of_nat n < 2147483648)%Z -> lmin < lmax ->
  let t := et_make n lmin lmax in
  first_of t first -> last_of t last ->
  (v < first -> et_index t v = Ok (-1)%Z) /\
  (first <= v -> last - numeric_epsilon <= v -> et_index t v = Ok (Z.of_nat n - 1)%Z) /\
  (first <= v < last - numeric_epsilon ->
     exists i, et_index t v = Ok i /\ brackets t numeric_epsilon v i).
Proof.
  intros Hn Hm Hl. cbv zeta. unfold first_of, last_of. rewrite et_n_R, !at_gval by lia.
  intros [= <-] [= <-]. rewrite minus_INR by lia. cbn [INR].
  split; [|split].
  - intros H. now apply index_below.
  - intros H1 H2. now apply index_above.
  - intros H. destruct (index_inside n lmin lmax Hn Hm Hl v H) as (i & E & B & L).
    exists i. split; [assumption|]. split; [rewrite et_n_R; assumption|].
    exists (gval n lmin lmax (IZR i)), (gval n lmin lmax (IZR (i + 1))). rewrite !at_gval by lia.
    replace (INR (Z.to_nat i + 1)) with (IZR (i + 1))
      by (rewrite plus_INR, INR_IZR_INZ, Z2Nat.id, plus_IZR by lia; reflexivity).
    replace (INR (Z.to_nat i)) with (IZR i) by (rewrite INR_IZR_INZ, Z2Nat.id by lia; reflexivity).
    split; [reflexivity|]. split; [reflexivity|]. assumption.
Qed.
Print Assumptions C19_lookup.

(** on a grid whose spacing exceeds the tolerance the upper neighbour is respected with the tolerance *)
Theorem C19_lookup_sharp n lmin lmax v first last :
  (2 <= n)%nat -> (Z.of_nat n < 2147483648)%Z -> lmin < lmax ->
  let t := et_make n lmin lmax in
  first_of t first -> last_of t last ->
  (forall i a b, at_ t i = Some a -> at_ t (S i) = Some b -> numeric_epsilon <= b - a) ->
  first <= v < last - numeric_epsilon ->
  exists i a b, et_index t v = Ok (Z.of_nat i) /\ at_ t i = Some a /\ at_ t (S i) = Some b /\
    a - numeric_epsilon <= v < b - numeric_epsilon.
Proof.
  intros Hn Hm Hl. cbv zeta. unfold first_of, last_of. rewrite et_n_R, !at_gval by lia.
  intros [= <-] [= <-] W. rewrite minus_INR by lia. cbn [INR]. intros H.
  destruct (index_inside_sharp n lmin lmax Hn Hm Hl v) as (i & E & B & L); [|exact H|].
  { intros i Hi. assert (numeric_epsilon <= gval n lmin lmax (IZR (i + 1)) - gval n lmin lmax (IZR i)); [|lra].
    apply (W (Z.to_nat i)); rewrite at_gval by lia; f_equal; f_equal; rewrite INR_IZR_INZ; f_equal; lia. }
  exists (Z.to_nat i), (gval n lmin lmax (IZR i)), (gval n lmin lmax (IZR (i + 1))).
  rewrite !at_gval, Z2Nat.id by lia. split; [assumption|].
  replace (INR (S (Z.to_nat i))) with (IZR (i + 1))
    by (rewrite S_INR, INR_IZR_INZ, Z2Nat.id, plus_IZR by lia; reflexivity).
  replace (INR (Z.to_nat i)) with (IZR i) by (rewrite INR_IZR_INZ, Z2Nat.id by lia; reflexivity).
  auto.
Qed.
Print Assumptions C19_lookup_sharp.

(** in particular the library's grid; and evaluation of a spline never leaves its arrays, for any argument *)
Theorem C19_library v : exists i, et_index (energy_table (F:=R)) v = Ok i /\ (-1 <= i <= 599)%Z.
Proof. apply et_index_total. Qed.
Print Assumptions C19_library.

Lemma library_spacing i a b :
  at_ energy_table i = Some a -> at_ energy_table (S i) = Some b -> 1 / 100000 < b - a.
Proof.
  rewrite energy_table_eq. intros Ha Hb.
  assert (S i < 600)%nat.
  { rewrite <- (et_values_length 600 (-3) 7). apply nth_error_Some. unfold at_ in Hb. congruence. }
  rewrite at_gval in Ha, Hb by lia. rewrite S_INR in Hb. injection Ha as <-. injection Hb as <-.
  pose proof (grid_gap (Z.of_nat i) ltac:(lia)) as G. rewrite plus_IZR, <- INR_IZR_INZ in G. exact G.
Qed.

Example C19_case : exists first last,
  first_of energy_table first /\ last_of energy_table last /\ first <= 1 < last - numeric_epsilon.
Proof.
  rewrite energy_table_eq. unfold first_of, last_of. exists (gval 600 (-3) 7 0), (glast 600 (-3) 7).
  rewrite et_n_R, !at_gval by lia. split; [reflexivity|].
  split; [unfold glast; do 2 f_equal; rewrite minus_INR by lia; reflexivity|].
  rewrite glast_same. split; [|apply ls_glast_big].
  unfold gval. replace 1 with (exp 0) by apply exp_0. left. apply exp_increasing. pose proof LN10_pos. nra.
Qed.

(** the upper_bound variant (the other preprocessor branch) *)
Lemma upper_bound_spec (l : list R) v :
  (forall i a b, nth_error l i = Some a -> nth_error l (S i) = Some b -> a < b) ->
  (0 <= upper_bound l v <= Z.of_nat (length l))%Z /\
  (forall i a, nth_error l i = Some a -> (Z.of_nat i < upper_bound l v)%Z <-> a <= v).
Proof.
  induction l as [|x l IH]; intros S.
  - cbn. split; [lia|]. intros [|i] a H; discriminate.
  - cbn [upper_bound]. numR. destruct IH as [B IH].
    { intros i a b Ha Hb. exact (S (Datatypes.S i) a b Ha Hb). }
    assert (UP : forall i a, nth_error (x :: l) (Datatypes.S i) = Some a -> x < a).
    { induction i as [|i IHi]; intros a Ha; [exact (S 0%nat x a eq_refl Ha)|].
      destruct (nth_error (x :: l) (Datatypes.S i)) as [b|] eqn:E.
      - pose proof (IHi b eq_refl). pose proof (S (Datatypes.S i) b a E Ha). lra.
      - apply nth_error_None in E. assert (nth_error (x :: l) (Datatypes.S (Datatypes.S i)) <> None) by congruence.
        apply nth_error_Some in H. lia. }
    cbn [length]. destruct (Rltb_spec v x) as [V|V].
    + split; [lia|]. intros i a Ha. split; [lia|]. intros L.
      destruct i; [injection Ha as <-; lra|]. pose proof (UP i a Ha). lra.
    + split; [lia|]. intros i a Ha. destruct i; [injection Ha as <-; split; [lra|lia]|].
      cbn [nth_error] in Ha. rewrite <- (IH i a Ha). lia.
Qed.

Theorem C19_upper_bound n lmin lmax v first last :
  (2 <= n)%nat -> lmin < lmax ->
  let t := et_make n lmin lmax in
  first_of t first -> last_of t last -> first <= v < last - numeric_epsilon ->
  exists i a b, et_index_ub t v = Ok (Z.of_nat i) /\ at_ t i = Some a /\ at_ t (S i) = Some b /\ a <= v < b.
Proof.
  intros Hn Hl. cbv zeta. unfold first_of, last_of. rewrite et_n_R. intros Hf Hla [V1 V2].
  destruct (C18_grid n lmin lmax Hn Hl) as (L & _ & _ & _ & r & _ & S).
  destruct (upper_bound_spec (et_values (et_make n lmin lmax)) v) as [B U].
  { intros i a b Ha Hb. exact (proj1 (S i a b Ha Hb)). }
  unfold at_ in *. set (k := upper_bound (et_values (et_make n lmin lmax)) v) in *.
  pose proof (proj2 (U _ _ Hf) V1) as K0. assert (K1 : (k <= Z.of_nat (n - 1))%Z).
  { apply Z.nlt_ge. intros Q. apply (U _ _ Hla) in Q. pose proof eps_pos. lra. }
  destruct (nth_error (et_values (et_make n lmin lmax)) (Z.to_nat (k - 1))) as [a|] eqn:Ea.
  2: { apply nth_error_None in Ea. lia. }
  destruct (nth_error (et_values (et_make n lmin lmax)) (Z.to_nat k)) as [b|] eqn:Eb.
  2: { apply nth_error_None in Eb. lia. }
  exists (Z.to_nat (k - 1)), a, b.
  replace (Datatypes.S (Z.to_nat (k - 1))) with (Z.to_nat k) by lia.
  split; [|split; [assumption|split; [assumption|]]].
  - unfold et_index_ub. rewrite et_n_R.
    replace (aget (et_values (et_make n lmin lmax)) 0) with (Ok first)
      by (symmetry; apply aget_ok; split; [lia|exact Hf]).
    cbn [bind]. replace (aget (et_values (et_make n lmin lmax)) (Z.of_nat n - 1)) with (Ok last).
    2: { symmetry. apply aget_ok. split; [lia|]. replace (Z.to_nat (Z.of_nat n - 1)) with (n - 1)%nat by lia. exact Hla. }
    numR. rewrite (step_nz n lmin lmax Hn Hl). cbn [bind].
    destruct (Rltb_spec v first); [lra|]. cbn [orb].
    destruct (Rleb_spec (last - numeric_epsilon) v); [lra|]. fold k. rewrite Z2Nat.id by lia. reflexivity.
  - split; [apply (U _ _ Ea); lia|]. apply Rnot_le_lt. intros Q. apply (U _ _ Eb) in Q. lia.
Qed.
Print Assumptions C19_upper_bound.

(** linear grid *)
Theorem C19_linear n mn mx v : (2 <= n)%nat -> (Z.of_nat n < 2147483648)%Z -> mn < mx ->
  let t := lin_make n mn mx in
  (v < mn -> lin_index t v = Ok (-1)%Z) /\ (mx <= v -> lin_index t v = Ok (Z.of_nat n - 1)%Z) /\
  (mn <= v < mx -> exists i, lin_index t v = Ok i /\ (0 <= i <= Z.of_nat n - 2)%Z /\
     lin_value t i <= v < lin_value t (i + 1)).
Proof.
  intros Hn Hm Hl. cbv zeta. unfold lin_index, lin_make, lin_value. cbn [lin_min lin_max lin_step lin_n]. numR.
  pose proof (nR n Hn) as N2. destruct (Rleb_spec mx mn); [lra|].
  assert (N1 : IZR (Z.of_nat n - 1) = INR n - 1) by (rewrite minus_IZR, <- INR_IZR_INZ; reflexivity).
  rewrite N1. set (s := (mx - mn) / (INR n - 1)). assert (SP : 0 < s) by (apply Rdiv_lt_0_compat; lra).
  destruct (Reqb_spec s (Rlit 0.0)) as [Q|_]; [dec_norm; lra|]. rewrite orb_false_r.
  split; [|split].
  - intros H. destruct (Rltb_spec v mn); [reflexivity|lra].
  - intros H. destruct (Rltb_spec v mn); [lra|]. destruct (Rleb_spec mx v); [reflexivity|lra].
  - intros H. destruct (Rltb_spec v mn); [lra|]. destruct (Rleb_spec mx v); [lra|].
    destruct (Rfloor_bound ((v - mn) / s)) as [B1 B2]. set (i := Rfloor_Z ((v - mn) / s)) in *.
    assert (E : (v - mn) / s * s = v - mn) by (field; lra).
    assert (P0 : 0 <= (v - mn) / s) by (apply Rmult_le_reg_r with s; [assumption|]; lra).
    assert (P1 : (v - mn) / s < INR n - 1).
    { apply Rmult_lt_reg_r with s; [assumption|]. rewrite E. unfold s.
      replace ((INR n - 1) * ((mx - mn) / (INR n - 1))) with (mx - mn) by (field; lra). lra. }
    assert (I0 : (0 <= i)%Z) by (assert (Q : IZR (-1) < IZR i) by lra; apply lt_IZR in Q; lia).
    assert (I1 : (i < Z.of_nat n - 1)%Z) by (apply lt_IZR; rewrite N1; lra).
    rewrite Rto_int_IZR by lia. exists i. split; [reflexivity|]. split; [lia|]. rewrite plus_IZR. nra.
Qed.
Print Assumptions C19_linear.

(** *** binary64 *)
Lemma et_aget_any {F} {N : Num F} n (lo hi : F) i : (i < n)%nat ->
  aget (et_values (et_make n lo hi)) (Z.of_nat i) = Ok (et_point lo (et_step (et_make n lo hi)) i).
Proof.
  intros H. unfold aget. destruct (Z.ltb_spec (Z.of_nat i) 0); [lia|]. rewrite Nat2Z.id.
  change (et_values (et_make n lo hi)) with (map (et_point lo (et_step (et_make n lo hi))) (seq 0 n)).
  erewrite map_nth_error; [reflexivity|]. rewrite nth_error_nth' with (d := 0%nat) by (now rewrite seq_length).
  f_equal. now rewrite seq_nth.
Qed.

(** values of exp and log the library meets when it looks up 1e7, the correctly rounded ones:
    exp(-6.907755278982138) = 0.0009999999999999994, exp(16.11809565095832) = 10000000.000000006,
    log(10000000000.000006) = 23.025850929940457 *)
Definition rounds_like (lm : Libm) : Prop :=
  lm_exp lm (-0x1.ba18a998fffa1p2)%float = 0x1.0624dd2f1a9f9p-10%float /\
  lm_exp lm 0x1.01e3b843eaa73p4%float = 0x1.312d000000003p23%float /\
  lm_log lm 0x1.2a05f20000003p33%float = 0x1.7069e2aa2aa5bp4%float.

Theorem C19_binary64_refuted :
  exists v : float, v = 10000000%float /\
    (forall lm, rounds_like lm ->
       et_index (N := NumF lm) (energy_table (N := NumF lm)) v = UB OutOfBounds) /\
    (exists lm, rounds_like lm).
Proof.
  exists 10000000%float. split; [reflexivity|]. split.
  - intros lm (E0 & E1 & L).
    unfold et_index, energy_table. change (Z.to_nat max_datapoints) with 600%nat.
    set (t := et_make (N := NumF lm) 600 (logEmin (N := NumF lm)) (logEmax (N := NumF lm))).
    change (et_n t) with 600%nat. change (Z.of_nat 600 - 1)%Z with (Z.of_nat 599).
    change 0%Z with (Z.of_nat 0) at 1. unfold t.
    rewrite (et_aget_any (N := NumF lm)) by lia. rewrite (et_aget_any (N := NumF lm)) by lia. fold t.
    assert (P0 : et_point (N := NumF lm) (logEmin (N := NumF lm)) (et_step t) 0 = 0x1.0624dd2f1a9f9p-10%float).
    { rewrite <- E0. unfold et_point. cbn [fexp NumF]. f_equal. }
    assert (P1 : et_point (N := NumF lm) (logEmin (N := NumF lm)) (et_step t) 599 = 0x1.312d000000003p23%float).
    { rewrite <- E1. unfold et_point. cbn [fexp NumF]. f_equal. }
    rewrite P0, P1. cbn [bind].
    assert (ST : et_step t = 0x1.1185c5058e513p-6%float) by (vm_compute; reflexivity).
    rewrite ST.
    assert (Q : fdiv (Num := NumF lm) 10000000%float 0x1.0624dd2f1a9f9p-10%float = 0x1.2a05f20000003p33%float)
      by (vm_compute; reflexivity).
    rewrite Q. cbn [flog NumF]. rewrite L.
    assert (C1 : (fltb (Num := NumF lm) 10000000%float 0x1.0624dd2f1a9f9p-10%float
                  || feqb (Num := NumF lm) 0x1.1185c5058e513p-6%float (lit (Num := NumF lm) 0.0))%bool = false)
      by (vm_compute; reflexivity).
    cbn [fltb feqb lit NumF] in C1. cbn [fltb feqb lit NumF]. rewrite C1.
    assert (C2 : fleb (Num := NumF lm) (fsub (Num := NumF lm) 0x1.312d000000003p23%float
                   (numeric_epsilon (N := NumF lm))) 10000000%float = false) by (vm_compute; reflexivity).
    cbn [fleb fsub NumF] in C2. cbn [fleb fsub NumF]. rewrite C2.
    assert (I : fto_int (Num := NumF lm) (ffloor (Num := NumF lm)
                  (fdiv (Num := NumF lm) (fdiv (Num := NumF lm) 0x1.7069e2aa2aa5bp4%float (LN10_ (N := NumF lm)))
                        0x1.1185c5058e513p-6%float)) = Some 599%Z) by (vm_compute; reflexivity).
    cbn [fto_int ffloor fdiv NumF] in I. cbn [fto_int ffloor fdiv NumF]. rewrite I. cbn [cast bind].
    rewrite aget_UB; [reflexivity|]. unfold t. cbn [et_values et_make]. rewrite map_length, seq_length. lia.
  - exists (Build_Libm (fun x => if PrimFloat.ltb x 0 then 0x1.0624dd2f1a9f9p-10%float else 0x1.312d000000003p23%float)
              (fun _ => 0x1.7069e2aa2aa5bp4%float) (fun x => x) (fun x => x) (fun x _ => x)).
    split; [vm_compute; reflexivity|]. split; vm_compute; reflexivity.
Qed.
Print Assumptions C19_binary64_refuted.

(** NaN: the conversion of floor(NaN) to int is undefined, on any grid *)
Lemma nan_SF x : PrimFloat.is_nan x = true -> Prim2SF x = S754_nan.
Proof.
  unfold PrimFloat.is_nan. rewrite FloatAxioms.eqb_spec. unfold SFeqb.
  destruct (Prim2SF x) as [s|s| |s m e] eqn:E; try reflexivity; cbn; intros H; exfalso.
  - destruct s; discriminate.
  - destruct s; discriminate.
  - rewrite Z.compare_refl, Pos.compare_cont_refl in H. destruct s; discriminate.
Qed.
Lemma SF_nan x : Prim2SF x = S754_nan -> PrimFloat.is_nan x = true.
Proof. unfold PrimFloat.is_nan. rewrite FloatAxioms.eqb_spec. intros ->. reflexivity. Qed.
Lemma nan_lt_l x y : PrimFloat.is_nan x = true -> PrimFloat.ltb x y = false.
Proof. intros H. rewrite FloatAxioms.ltb_spec, (nan_SF x H). reflexivity. Qed.
Lemma nan_le_r x y : PrimFloat.is_nan y = true -> PrimFloat.leb x y = false.
Proof. intros H. rewrite FloatAxioms.leb_spec, (nan_SF y H). unfold SFleb, SFcompare. destruct (Prim2SF x) as [[]|[]| |[]]; reflexivity. Qed.
Lemma nan_div x y : PrimFloat.is_nan x = true -> PrimFloat.is_nan (PrimFloat.div x y) = true.
Proof. intros H. apply SF_nan. rewrite FloatAxioms.div_spec, (nan_SF x H). reflexivity. Qed.
Lemma nan_floor x : PrimFloat.is_nan x = true -> F_to_int (F_floor x) = None.
Proof.
  intros H. pose proof (nan_SF x H) as E. unfold F_floor. rewrite E. unfold F_to_int, F_trunc_Z. rewrite E. reflexivity.
Qed.

Theorem C19_nan_refuted :
  exists v : float, forall lm n lo hi,
    (forall x, PrimFloat.is_nan x = true -> PrimFloat.is_nan (lm_log lm x) = true) -> (1 <= n)%nat ->
    PrimFloat.eqb (et_step (et_make (N := NumF lm) n lo hi)) 0 = false ->
    et_index (N := NumF lm) (et_make (N := NumF lm) n lo hi) v = UB BadCast.
Proof.
  exists nan. intros lm n lo hi LN H ST. unfold et_index.
  assert (NN : PrimFloat.is_nan nan = true) by reflexivity.
  change (et_n (et_make (N := NumF lm) n lo hi)) with n.
  change 0%Z with (Z.of_nat 0) at 1. rewrite (et_aget_any (N := NumF lm)) by lia.
  replace (Z.of_nat n - 1)%Z with (Z.of_nat (n - 1)) by lia. rewrite (et_aget_any (N := NumF lm)) by lia.
  cbn [bind]. cbn [fltb feqb fleb fdiv ffloor fto_int flog lit NumF].
  change (F_lit 0.0) with 0%float. rewrite (nan_lt_l nan _ NN), ST. cbn [orb].
  rewrite (nan_le_r _ nan NN). rewrite nan_floor; [reflexivity|].
  apply nan_div, nan_div, LN, nan_div, NN.
Qed.
Print Assumptions C19_nan_refuted.

Example C19_nan_case : exists lm,
  (forall x, PrimFloat.is_nan x = true -> PrimFloat.is_nan (lm_log lm x) = true) /\
  PrimFloat.eqb (et_step (et_make (N := NumF lm) 600 (-3)%float 7%float)) 0 = false.
Proof.
  exists (Build_Libm (fun x => x) (fun x => x) (fun x => x) (fun x => x) (fun x _ => x)).
  split; [auto|vm_compute; reflexivity].
Qed.

(** ** C25 *)

(** the linear interpolant of a table over the grid positions *)
Definition on_chord (x0 y0 x1 y1 x y : R) : Prop := (y - y0) * (x1 - x0) = (y1 - y0) * (x - x0).

Section C25.
  Variables (n : nat) (lmin lmax : R).
  Hypothesis n2 : (2 <= n)%nat.
  Hypothesis nmax : (Z.of_nat n < 2147483648)%Z.
  Hypothesis lim : lmin < lmax.
  Variable y : Z -> outcome R.
  Variable yv : nat -> R.
  Hypothesis tabulated : forall i, (i < n)%nat -> y (Z.of_nat i) = Ok (yv i).
  Hypothesis spacing : forall i a b, at_ (et_make n lmin lmax) i = Some a ->
    at_ (et_make n lmin lmax) (S i) = Some b -> numeric_epsilon < b - a.

  Lemma spacing_g i : (0 <= i <= Z.of_nat n - 2)%Z ->
    gval n lmin lmax (IZR i) < gval n lmin lmax (IZR (i + 1)) - numeric_epsilon.
  Proof.
    intros Hi. assert (numeric_epsilon < gval n lmin lmax (IZR (i + 1)) - gval n lmin lmax (IZR i)); [|lra].
    apply (spacing (Z.to_nat i)); rewrite at_gval by lia; f_equal; f_equal; rewrite INR_IZR_INZ; f_equal; lia.
  Qed.
  Lemma tabulated_Z i : (0 <= i < Z.of_nat n)%Z -> y i = Ok (yv (Z.to_nat i)).
  Proof. intros H. rewrite <- (Z2Nat.id i) at 1 by lia. apply tabulated. lia. Qed.

  Theorem C25_at_grid k v : at_ (et_make n lmin lmax) k = Some v ->
    et_interpolate (et_make n lmin lmax) v y = Ok (yv k).
  Proof.
    intros H. assert (K : (k < n)%nat).
    { rewrite <- (et_values_length n lmin lmax). apply nth_error_Some. unfold at_ in H. congruence. }
    rewrite at_gval in H by assumption. injection H as <-. rewrite INR_IZR_INZ.
    rewrite (interp_knot n lmin lmax n2 nmax lim y (Z.of_nat k) (fun i => yv (Z.to_nat i))).
    - now rewrite Nat2Z.id.
    - exact spacing_g.
    - exact tabulated_Z.
    - lia.
  Qed.

  (** between two grid energies (the tolerance apart) the value is on the chord, hence between the table values *)
  Theorem C25_between k a b x : at_ (et_make n lmin lmax) k = Some a -> at_ (et_make n lmin lmax) (S k) = Some b ->
    a <= x < b - numeric_epsilon ->
    exists v, et_interpolate (et_make n lmin lmax) x y = Ok v /\ on_chord a (yv k) b (yv (S k)) x v /\
      Rmin (yv k) (yv (S k)) <= v <= Rmax (yv k) (yv (S k)).
  Proof.
    intros Ha Hb Hx. pose proof (spacing k a b Ha Hb) as SP. pose proof eps_pos as EP.
    assert (K : (S k < n)%nat).
    { rewrite <- (et_values_length n lmin lmax). apply nth_error_Some. unfold at_ in Hb. congruence. }
    rewrite at_gval in Ha, Hb by lia.
    assert (A : a = gval n lmin lmax (IZR (Z.of_nat k))) by (rewrite <- INR_IZR_INZ; congruence).
    assert (B : b = gval n lmin lmax (IZR (Z.of_nat k + 1))).
    { rewrite plus_IZR, <- INR_IZR_INZ. rewrite S_INR in Hb. congruence. }
    assert (U : b <= glast n lmin lmax).
    { rewrite B, glast_IZR. apply gval_le; [assumption|assumption|]. apply IZR_le. lia. }
    assert (Lo : gfirst n lmin lmax <= a).
    { rewrite A. unfold gfirst. apply gval_le; [assumption|assumption|]. apply IZR_le. lia. }
    destruct (interp_between n lmin lmax n2 nmax lim y x (fun i => yv (Z.to_nat i)) tabulated_Z)
      as (i & l & I & X & L & E); [lra|].
    assert (I' : i = Z.of_nat k).
    { destruct (index_inside_sharp n lmin lmax n2 nmax lim x) as (j & Ej & J & J1 & J2);
        [intros q Hq; left; apply spacing_g; assumption|lra|].
      assert (JK : j = Z.of_nat k).
      { destruct (Z.lt_total j (Z.of_nat k)) as [Q|[Q|Q]]; [exfalso|assumption|exfalso].
        - assert (gval n lmin lmax (IZR (j + 1)) <= a).
          { rewrite A. apply gval_le; [assumption|assumption|]. apply IZR_le. lia. } lra.
        - assert (b <= gval n lmin lmax (IZR j)).
          { rewrite B. apply gval_le; [assumption|assumption|]. apply IZR_le. lia. } lra. }
      subst j. destruct (Z.lt_total i (Z.of_nat k)) as [Q|[Q|Q]]; [exfalso|assumption|exfalso].
      - assert (M : gval n lmin lmax (IZR (i + 1)) <= a).
        { rewrite A. apply gval_le; [assumption|assumption|]. apply IZR_le. lia. }
        pose proof (spacing_g i I). nra.
      - assert (M : b <= gval n lmin lmax (IZR i)).
        { rewrite B. apply gval_le; [assumption|assumption|]. apply IZR_le. lia. }
        pose proof (spacing_g i I) as SG.
        set (h := gval n lmin lmax (IZR (i + 1)) - gval n lmin lmax (IZR i)) in *.
        assert (HP : 0 < h) by (unfold h; lra).
        assert (- numeric_epsilon <= l * h).
        { destruct L as [L _]. apply Rmult_le_compat_r with (r := h) in L; [|lra].
          unfold Rdiv in L. rewrite Ropp_mult_distr_l, Rmult_assoc, Rinv_l, Rmult_1_r in L by lra. exact L. }
        lra. }
    subst i. rewrite <- A, <- B in X, L. rewrite Nat2Z.id in E.
    replace (Z.to_nat (Z.of_nat k + 1)) with (S k) in E by lia.
    eexists. split; [exact E|].
    assert (L0 : 0 <= l).
    { apply Rmult_le_reg_r with (b - a); [lra|]. lra. }
    split.
    - unfold on_chord. rewrite X at 1. ring.
    - set (y0 := yv k). set (y1 := yv (S k)). destruct L as [_ L1].
      pose proof (Rmin_l y0 y1). pose proof (Rmin_r y0 y1). pose proof (Rmax_l y0 y1). pose proof (Rmax_r y0 y1).
      set (mi := Rmin y0 y1) in *. set (ma := Rmax y0 y1) in *. split; nra.
  Qed.

  (** outside the table *)
  Theorem C25_outside x first last :
    first_of (et_make n lmin lmax) first -> last_of (et_make n lmin lmax) last ->
    x < first \/ last < x -> et_interpolate (et_make n lmin lmax) x y = Ok 0.
  Proof.
    unfold first_of, last_of. rewrite et_n_R, !at_gval by lia. intros [= <-] [= <-].
    rewrite minus_INR by lia. cbn [INR]. intros H. now apply interp_outside.
  Qed.

  (** within the tolerance below the last grid energy the code reads past the grid *)
  Theorem C25_gap x last :
    last_of (et_make n lmin lmax) last -> last - numeric_epsilon <= x < last ->
    et_interpolate (et_make n lmin lmax) x y = UB OutOfBounds.
  Proof.
    unfold last_of. rewrite et_n_R, !at_gval by lia. intros [= <-]. rewrite minus_INR by lia. cbn [INR]. intros H.
    apply interp_gap; [assumption|assumption|exact H|].
    pose proof (spacing_g (Z.of_nat n - 2) ltac:(lia)) as SG.
    replace (Z.of_nat n - 2 + 1)%Z with (Z.of_nat n - 1)%Z in SG by lia. rewrite <- glast_IZR in SG.
    unfold glast in SG.
    assert (gfirst n lmin lmax <= gval n lmin lmax (IZR (Z.of_nat n - 2))).
    { unfold gfirst. apply gval_le; [assumption|assumption|]. apply IZR_le. lia. } lra.
  Qed.
End C25.
Print Assumptions C25_at_grid.
Print Assumptions C25_between.
Print Assumptions C25_outside.
Print Assumptions C25_gap.

(** the hypotheses hold for the Lindhard tables *)
Lemma ls_spacing i a b :
  at_ (ls_energy_table (F:=R)) i = Some a -> at_ ls_energy_table (S i) = Some b -> numeric_epsilon < b - a.
Proof.
  rewrite ls_table_eq. intros Ha Hb.
  assert (K : (S i < 200)%nat).
  { rewrite <- (et_values_length 200 0 7). apply nth_error_Some. unfold at_ in Hb. congruence. }
  rewrite at_gval in Ha, Hb by lia. rewrite S_INR in Hb. injection Ha as <-. injection Hb as <-.
  pose proof (gval_ratio 200 0 7 (INR i)) as G. set (a := gval 200 0 7 (INR i)) in *.
  assert (A1 : 1 <= a).
  { unfold a, gval. rewrite <- exp_0. pose proof LN10_pos. pose proof (gstep_pos 200 0 7 ltac:(lia) ltac:(lra)).
    pose proof (pos_INR i). destruct (Req_dec (INR i * gstep 200 0 7) 0) as [E|E].
    - rewrite E. right. f_equal. ring.
    - left. apply exp_increasing. assert (0 < INR i * gstep 200 0 7) by nra. nra. }
  assert (E1 : LN10_ * gstep 200 0 7 < exp (LN10_ * gstep 200 0 7) - 1).
  { pose proof LN10_pos. pose proof (gstep_pos 200 0 7 ltac:(lia) ltac:(lra)).
    pose proof (exp_ineq1 (LN10_ * gstep 200 0 7)). assert (0 < LN10_ * gstep 200 0 7) by nra. lra. }
  assert (S1 : 1 / 1000 < LN10_ * gstep 200 0 7).
  { unfold gstep. replace (INR 200) with 200 by (cbn; lra). pose proof LN10_bounds. lra. }
  assert (gval 200 0 7 (INR i + 1) = a * exp (LN10_ * gstep 200 0 7)).
  { rewrite <- G. field. lra. }
  pose proof eps_small. nra.
Qed.

Theorem C25_lindhard_tables (tab : list (list dec)) z row i T v :
  aget tab z = Ok row -> length row = 200%nat ->
  at_ (ls_energy_table (F:=R)) i = Some T -> nth_error row i = Some v ->
  ls_lookup tab z T = Ok (lit v).
Proof.
  intros Hr L HT Hv. unfold ls_lookup. rewrite Hr. cbn [bind].
  rewrite ls_table_eq in *.
  rewrite (C25_at_grid 200 0 7 ltac:(lia) ltac:(lia) ltac:(lra) _ (fun k => lit (nth k row 0%dec))) with (k := i).
  - f_equal. f_equal. now apply nth_error_nth.
  - intros k Hk. unfold aget. destruct (Z.ltb_spec (Z.of_nat k) 0); [lia|]. rewrite Nat2Z.id.
    rewrite (nth_error_nth' row 0%dec) by lia. reflexivity.
  - intros k a b Ha Hb. apply (ls_spacing k a b); rewrite ls_table_eq; assumption.
  - assumption.
Qed.
Print Assumptions C25_lindhard_tables.

(** ... and outside the tables the correction vanishes, whatever the table says at its limit; the
    straggling factor is 1 below and 0 above *)
Theorem C25_lindhard_limits p : proj_Z_ok p ->
  (ls_glast < pT p -> precalculated_lindhard (F:=R) p = Ok 0 /\ precalculated_lindhard_X p = Ok 0) /\
  (pT p < 1 -> precalculated_lindhard_X (F:=R) p = Ok 1).
Proof.
  intros Z. destruct (proj_Z_int p Z) as [E B]. pose proof ls_glast_big. pose proof eps_pos.
  assert (O : forall (tab : list (list dec)) z, (0 <= z < Z.of_nat (length tab))%Z -> ls_glast < pT p ->
                ls_lookup tab z (pT p) = Ok 0).
  { intros tab z Hz HT. unfold ls_lookup. destruct (defined_aget tab z Hz) as [row ->]. cbn [bind].
    rewrite ls_table_eq. apply interp_outside; [lia|]. right. exact HT. }
  assert (M : (Rfloor_Z (pZ p) >? LS_MAX_Z)%Z = false)
    by (rewrite Z.gtb_ltb; apply Z.ltb_ge; unfold LS_MAX_Z; lia).
  destruct ls_a_sizes as [A1 _], ls_ahi_sizes as [A2 _], ls_Xa_sizes as [A3 _], ls_Xahi_sizes as [A4 _].
  split; [intros HT; split|intros HT].
  - unfold precalculated_lindhard. rewrite E. cbn [cast bind]. cbv zeta. rewrite M, ls_e0. cbn [bind].
    replace (fltb (pT p) 1) with false by (symmetry; apply Rltb_false; lra).
    rewrite !O by (rewrite ?A1, ?A2; lia || lra). cbn [bind]. numR. f_equal. unfold Rdiv. ring.
  - unfold precalculated_lindhard_X. rewrite E. cbn [cast bind]. cbv zeta. rewrite M, ls_e0. cbn [bind].
    replace (fltb (pT p) 1) with false by (symmetry; apply Rltb_false; lra).
    rewrite !O by (rewrite ?A3, ?A4; lia || lra). cbn [bind]. numR. f_equal. unfold Rdiv. ring.
  - unfold precalculated_lindhard_X. rewrite E. cbn [cast bind]. cbv zeta. rewrite M, ls_e0. cbn [bind].
    replace (fltb (pT p) 1) with true by (symmetry; apply Rltb_true; lra). f_equal. numR. dec_norm. lra.
Qed.
Print Assumptions C25_lindhard_limits.

(** the table does not vanish at its upper limit: uranium *)
Example C25_limit_not_zero : exists row v, nth_error ls_coefficients_a 91 = Some row /\
  nth_error row 199 = Some v /\ (lit v : R) <> 0.
Proof.
  destruct (nth_error ls_coefficients_a 91) as [row|] eqn:E; [|vm_compute in E; discriminate].
  exists row. destruct (nth_error row 199) as [v|] eqn:E2.
  - exists v. split; [reflexivity|]. split; [reflexivity|].
    vm_compute in E. injection E as <-. vm_compute in E2. injection E2 as <-. numR. dec_norm. lra.
  - exfalso. vm_compute in E. injection E as <-. vm_compute in E2. discriminate.
Qed.
