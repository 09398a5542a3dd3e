(** * C66, the option ET_CALCULATED_INDEX in binary64 *)
From Coq Require Import ZArith Reals List Bool Lia Lra Floats.
From Verif Require Import Num NumR NumF Structures EnergyTable Spline Binary64 Binary64Num GridProofs PropTables PropGrid PropGridFloat PropSplineFloat Search PropSearch.
Import ListNotations.
Local Open Scope R_scope.

Lemma energyF_lt lm i j : exp_accurate lm -> (i < j < 600)%nat -> val (energyF lm i) < val (energyF lm j).
Proof. intros EX H. pose proof (increasing_F lm i j EX H) as A. destruct (C18_binary64_increasing lm i EX ltac:(lia)) as [P _]. replace 1.037 with (1037 / 1000) in A by lra. lra. Qed.

(** For every finite double the search finds the interval of the grid that holds it, with no tolerance but the one at the last energy; only exp has to be
    accurate, there is no logarithm in the lookup. *)
Theorem C66_search_binary64 lm v : exp_accurate lm -> fin v ->
  (val v < val (energyF lm 0) -> et_index_search (N:=NumF lm) (tableF lm) v = Ok (-1)%Z) /\
  (val (energyF lm 599) <= val v -> et_index_search (N:=NumF lm) (tableF lm) v = Ok 599%Z) /\
  (val (energyF lm 0) <= val v < val (energyF lm 599) -> exists i, et_index_search (N:=NumF lm) (tableF lm) v = Ok (Z.of_nat i) /\
     ((i <= 598)%nat /\ val (energyF lm i) <= val v < val (energyF lm (S i)) \/ i = 599%nat /\ val (energyF lm 599) * (1 - 1 / 10 ^ 11) <= val v)).
Proof.
  intros EX FV. pose proof (energyF_bounds lm 0 EX ltac:(lia)) as (F0 & P0 & B0). pose proof (energyF_bounds lm 599 EX ltac:(lia)) as (F9 & P9 & B9).
  pose proof (energyF_lt lm 0 599 EX ltac:(lia)) as INC.
  destruct (minus_eps lm 599 EX ltac:(lia)) as (FE9 & BE9).
  unfold et_index_search. change (et_n (tableF lm)) with 600%nat. change (Z.of_nat 600 - 1)%Z with 599%Z. rewrite (agetF lm 0), (agetF lm 599) by lia. cbn [bind].
  rewrite step_nonzero, orb_false_r. change (Z.to_nat 0) with 0%nat. change (Z.to_nat 599) with 599%nat.
  cbn [fltb fleb fsub NumF].
  pose proof (ltb_val v (energyF lm 0) FV F0) as C0. pose proof (leb_val _ v FE9 FV) as C9.
  split; [|split].
  - intros H. destruct C0 as [_C|_C]; [reflexivity|contradiction].
  - intros H. destruct C0 as [_C|_C]; [exfalso; lra|]. destruct C9 as [_D|_D]; [reflexivity|exfalso; lra].
  - intros [H1 H2]. destruct C0 as [_C|_C]; [exfalso; lra|]. clear _C. destruct C9 as [D|D].
    { exists 599%nat. split; [reflexivity|]. right. split; [reflexivity|]. lra. }
    assert (AT : forall i a, nth_error (et_values (tableF lm)) i = Some a -> (i < 600)%nat /\ a = energyF lm i).
    { intros i a A. assert (I1 : (i < 600)%nat) by (rewrite <- (proj1 (C18_binary64 lm EX)); apply nth_error_Some; congruence). split; [exact I1|]. symmetry. unfold energyF. now apply nth_error_nth. }
    destruct (ub_border (N:=NumF lm) (et_values (tableF lm)) v) with (r := 600%nat) (first := 0%nat) (len := 600%nat) as (k & E & H).
    + intros i j a b IJ A B. apply AT in A, B. destruct A as [I1 ->], B as [J ->]. destruct (energyF_bounds lm i EX I1) as (FI & _). destruct (energyF_bounds lm j EX J) as (FJ & _).
      cbn [fltb NumF]. destruct (ltb_val v (energyF lm i) FV FI) as [Q|Q]; [intros _|discriminate]. destruct (ltb_val v (energyF lm j) FV FJ) as [|Q']; [reflexivity|exfalso; apply Q'].
      destruct (Nat.eq_dec i j) as [<-|NE]; [exact Q|]. pose proof (energyF_lt lm i j EX ltac:(lia)). lra.
    + lia.
    + rewrite (proj1 (C18_binary64 lm EX)). lia.
    + intros; lia.
    + intros i a I1 A. apply AT in A. lia.
    + unfold std_upper_bound. rewrite (proj1 (C18_binary64 lm EX)), E. cbn [bind].
      assert (NTH : forall i, (i < 600)%nat -> nth_error (et_values (tableF lm)) i = Some (energyF lm i)) by (intros i I1; unfold energyF; apply nth_error_nth'; rewrite (proj1 (C18_binary64 lm EX)); exact I1).
      pose proof (H 0%nat _ (NTH 0%nat ltac:(lia))) as K0. pose proof (H 599%nat _ (NTH 599%nat ltac:(lia))) as K9. cbn [fltb NumF] in K0, K9.
      destruct (ltb_val v (energyF lm 0) FV F0) as [Q|_]; [lra|]. destruct (ltb_val v (energyF lm 599) FV F9) as [_|Q]; [|lra].
      destruct (Nat.ltb_spec 0 k) as [K1|]; [clear K0|discriminate]. destruct (Nat.ltb_spec 599 k) as [|K2]; [discriminate|clear K9].
      exists (k - 1)%nat. split; [f_equal; lia|]. left. split; [lia|]. replace (S (k - 1)) with k by lia.
      destruct (energyF_bounds lm (k - 1) EX ltac:(lia)) as (FA & _). destruct (energyF_bounds lm k EX ltac:(lia)) as (FB & _).
      pose proof (H (k - 1)%nat _ (NTH (k - 1)%nat ltac:(lia))) as KA. pose proof (H k _ (NTH k ltac:(lia))) as KB. cbn [fltb NumF] in KA, KB.
      destruct (Nat.ltb_spec (k - 1) k); [|lia]. destruct (Nat.ltb_spec k k); [lia|].
      destruct (ltb_val v (energyF lm (k - 1)) FV FA) as [|QA]; [discriminate|]. destruct (ltb_val v (energyF lm k) FV FB) as [QB|]; [|discriminate]. lra.
Qed.
Print Assumptions C66_search_binary64.

Example C66_search_binary64_case : exists i, et_index_search (N:=NumF rounded_libm) (tableF rounded_libm) 1%float = Ok (Z.of_nat i) /\ (i <= 598)%nat /\ val (energyF rounded_libm i) <= val 1%float < val (energyF rounded_libm (S i)).
Proof.
  destruct C19_binary64_case as ([EX _] & F1 & R1). destruct (C66_search_binary64 rounded_libm 1%float EX F1) as (_ & _ & H). destruct (energyF_bounds _ 599 EX ltac:(lia)) as (_ & P9 & B9).
  destruct (H ltac:(lra)) as (i & E & [[I1 B]|[-> B]]); [exists i; split; [exact E|]; split; [exact I1|exact B]|lra].
Qed.
