(** * Property C19: the two classes of logarithmic grids find the same index *)
From Coq Require Import ZArith Reals List Bool Lra Lia Floats.
From Verif Require Import Num NumR NumF Structures EnergyTable GridProofs PropGrid.
Import ListNotations.
Local Open Scope R_scope.

Section Arrays.
  Context {F : Type} {N : Num F}.
  Lemma kept n (lmin lmax : F) i x : aget (et_values (et_make n lmin lmax)) i = Ok x ->
    x = lv_value (lv_make n lmin lmax) i.
  Proof.
    intros H. apply aget_ok in H. destruct H as [P H].
    assert (L : (Z.to_nat i < n)%nat).
    { rewrite <- (seq_length n 0), <- (map_length (et_point lmin (et_step (et_make n lmin lmax)))). apply nth_error_Some.
      change (nth_error (et_values (et_make n lmin lmax)) (Z.to_nat i) <> None). congruence. }
    cbn [et_make et_values] in H. erewrite map_nth_error in H.
    2: { rewrite nth_error_nth' with (d := 0%nat) by (now rewrite seq_length). rewrite seq_nth by assumption. reflexivity. }
    injection H as <-. unfold et_point, lv_value, lv_make. cbn [lv_min lv_step]. cbn [Nat.add]. rewrite Z2Nat.id by lia. reflexivity.
  Qed.
End Arrays.

(** In every arithmetic, the binary64 one included: where the stored grid (EnergyTable) returns an index, the grid that
    recomputes its elements (LogVArray) returns the same one. *)
Theorem C19_same_index {F} {N : Num F} n (lmin lmax v : F) i :
  et_index (et_make n lmin lmax) v = Ok i -> lv_index (lv_make n lmin lmax) v = Ok i.
Proof.
  unfold et_index, lv_index. cbn [lv_n lv_make]. change (et_n (et_make n lmin lmax)) with n.
  change (et_step (et_make n lmin lmax)) with (lv_step (lv_make n lmin lmax)).
  intros H. apply bind_ok in H. destruct H as (v0 & E0 & H). apply kept in E0. subst v0.
  destruct (fltb v (lv_value (lv_make n lmin lmax) 0) || feqb (lv_step (lv_make n lmin lmax)) (lit 0.0)); [exact H|].
  apply bind_ok in H. destruct H as (vl & E1 & H). apply kept in E1. subst vl.
  destruct (fleb (fsub (lv_value (lv_make n lmin lmax) (Z.of_nat n - 1)) numeric_epsilon) v); [exact H|].
  apply bind_ok in H. destruct H as (k & E2 & H). apply bind_ok in H. destruct H as (w & E3 & H). apply kept in E3. subst w.
  cbv zeta. rewrite E2. exact H.
Qed.
Print Assumptions C19_same_index.

(** so over the reals the recomputing grid brackets its argument, as [C19_lookup] says of the stored one *)
Theorem C19_log_array n lmin lmax v : (2 <= n)%nat -> (Z.of_nat n < 2147483648)%Z -> lmin < lmax ->
  let t := lv_make n lmin lmax in let first := exp (LN10_ * lmin) in let last := exp (LN10_ * lmax) in
  (v < first -> lv_index t v = Ok (-1)%Z) /\
  (first <= v -> last - numeric_epsilon <= v -> lv_index t v = Ok (Z.of_nat n - 1)%Z) /\
  (first <= v < last - numeric_epsilon -> exists i, lv_index t v = Ok i /\ (0 <= i <= Z.of_nat n - 2)%Z /\
     lv_value t i - numeric_epsilon <= v < lv_value t (i + 1)).
Proof.
  intros Hn Hm Hl. cbv zeta. destruct (C18_grid n lmin lmax Hn Hl) as (_ & A & B & _).
  destruct (C19_lookup n lmin lmax v _ _ Hn Hm Hl A B) as (P1 & P2 & P3).
  split; [intros H; now apply C19_same_index, P1|]. split; [intros H H'; apply C19_same_index, P2; assumption|].
  intros H. destruct (P3 H) as (i & E & (I1 & I2) & a & b & Ea & Eb & IN). exists i. split; [now apply C19_same_index|].
  change (et_n (et_make n lmin lmax)) with n in I2. split; [lia|].
  rewrite C18_computed_grid in Ea, Eb by lia. apply (f_equal (fun o => match o with Some x => x | None => 0 end)) in Ea, Eb. cbv beta iota in Ea, Eb.
  rewrite Z2Nat.id in Ea by lia. replace (Z.of_nat (Z.to_nat i + 1)) with (i + 1)%Z in Eb by lia. rewrite Ea, Eb. exact IN.
Qed.
Print Assumptions C19_log_array.

(** the argument 1 of the grid from 1/1000 to 10^7 *)
Example C19_log_case : exp (LN10_ * -3) <= 1 < exp (LN10_ * 7) - numeric_epsilon /\ exists i, lv_index (lv_make 600 (-3) 7) 1 = Ok i /\ (0 <= i <= 598)%Z.
Proof.
  destruct C19_case as (f & l & A & B & IN). destruct C18_library as [E _]. rewrite E in A, B. unfold first_of, last_of in A, B. 
  destruct (C18_grid 600 (-3) 7 ltac:(lia) ltac:(lra)) as (_ & A' & B' & _). change (et_n (et_make 600 (-3) 7)) with 600%nat in B.
  rewrite A in A'. rewrite B in B'. apply (f_equal (fun o => match o with Some x => x | None => 0 end)) in A', B'. cbv beta iota in A', B'.
  rewrite <- A', <- B'. split; [exact IN|].
  destruct (C19_log_array 600 (-3) 7 1 ltac:(lia) ltac:(lia) ltac:(lra)) as (_ & _ & P). rewrite <- A', <- B' in P.
  destruct (P IN) as (i & X & Y & _). exists i. split; [exact X|]. lia.
Qed.
