(** * C66: the option VETABLE *)
From Coq Require Import ZArith Reals List Bool Lra Lia Floats.
From Verif Require Import Num NumR NumF Structures EnergyTable Spline Integrator Calculations Storage GridProofs PropGrid PropLogArray BoundsAny TotalProofs ApiTotal Cases Vetable.
Import ListNotations.

Section Any.
  Context {F : Type} {N : Num F}.

  Lemma values_same n (lmin lmax : F) : lv_values (lv_make n lmin lmax) = et_values (et_make n lmin lmax).
  Proof. reflexivity. Qed.

  Lemma nth_value n (lmin lmax : F) i d : (i < n)%nat ->
    nth i (et_values (et_make n lmin lmax)) d = lv_value (lv_make n lmin lmax) (Z.of_nat i).
  Proof.
    intros H. rewrite <- values_same. unfold lv_values. cbn [lv_n lv_make].
    rewrite nth_indep with (d' := lv_value (lv_make n lmin lmax) (Z.of_nat 0)) by (rewrite map_length, seq_length; exact H).
    rewrite (map_nth (fun i => lv_value (lv_make n lmin lmax) (Z.of_nat i))), seq_nth by exact H. reflexivity.
  Qed.

  (** ** The three tables are the same lists *)
  Theorem C66_vetable_tables p t c :
    range_table_V p t c = range_table p t c /\ straggling_table_V p t c = straggling_table p t c /\
    angular_table_V p t c = angular_table (F := F) p t c.
  Proof.
    unfold range_table_V, straggling_table_V, angular_table_V, range_table, straggling_table, angular_table.
    unfold energy_table_V, energy_table. rewrite values_same. split; [|split]; reflexivity.
  Qed.

  (** ** The splines have the same coefficients, and where the one on the array has a value the other has the same *)
  Definition alike (s : spline F) (s' : splineV F) : Prop :=
    (forall x v, spline_eval s x = Ok v -> spline_evalV s' x = Ok v) /\
    (forall x v, spline_deriv s x = Ok v -> spline_derivV s' x = Ok v).

  Theorem C66_vetable_spline n (lmin lmax : F) y junk : (2 <= n)%nat ->
    match make_spline (et_make n lmin lmax) y junk with
    | Ok s => exists s', make_splineV (lv_make n lmin lmax) y junk = Ok s' /\ alike s s'
    | UB why => make_splineV (lv_make n lmin lmax) y junk = UB why
    end.
  Proof.
    intros Hn. unfold make_spline, make_splineV. change (et_n (et_make n lmin lmax)) with n. change (lv_n (lv_make n lmin lmax)) with n.
    destruct (length y <? n)%nat; [reflexivity|]. rewrite values_same.
    destruct (trig_solve _) as [b|why]; cbn [bind]; [|reflexivity].
    rewrite !nth_value by lia.
    replace (Z.of_nat (n - 1)) with (Z.of_nat n - 1)%Z by lia. replace (Z.of_nat (n - 2)) with (Z.of_nat n - 2)%Z by lia.
    eexists. split; [reflexivity|]. split.
    - intros x v. unfold spline_eval, spline_evalV. cbn [sp_table sp_y sp_a sp_b sp_c sp_b0 sp_c0 sv_table sv_y sv_a sv_b sv_c sv_b0 sv_c0].
      change (et_n (et_make n lmin lmax)) with n. change (lv_n (lv_make n lmin lmax)) with n.
      intros H. apply bind_ok in H. destruct H as (i & Ei & H). apply C19_same_index in Ei. rewrite Ei. cbn [bind].
      apply bind_ok in H. destruct H as (xi & E1 & H). apply kept in E1. subst xi.
      apply bind_ok in H. destruct H as (x0 & E1 & H). apply kept in E1. subst x0.
      apply bind_ok in H. destruct H as (xl & E1 & H). apply kept in E1. subst xl. exact H.
    - intros x v. unfold spline_deriv, spline_derivV. cbn [sp_table sp_y sp_a sp_b sp_c sp_b0 sp_c0 sv_table sv_y sv_a sv_b sv_c sv_b0 sv_c0].
      change (et_n (et_make n lmin lmax)) with n. change (lv_n (lv_make n lmin lmax)) with n.
      intros H. apply bind_ok in H. destruct H as (i & Ei & H). apply C19_same_index in Ei. rewrite Ei. cbn [bind].
      apply bind_ok in H. destruct H as (xi & E1 & H). apply kept in E1. subst xi.
      apply bind_ok in H. destruct H as (x0 & E1 & H). apply kept in E1. subst x0.
      apply bind_ok in H. destruct H as (xl & E1 & H). apply kept in E1. subst xl. exact H.
  Qed.

  (** ** Together: a value or a slope read off the range spline of any ion and material *)
  Theorem C66_vetable_range p t c r s junk : range_table p t c = Ok r -> make_spline energy_table r junk = Ok s ->
    exists s', range_table_V p t c = Ok r /\ make_splineV energy_table_V r junk = Ok s' /\ alike s s'.
  Proof.
    intros H E. destruct (C66_vetable_tables p t c) as (A & _).
    pose proof (C66_vetable_spline (Z.to_nat max_datapoints) logEmin logEmax r junk ltac:(vm_compute; lia)) as K.
    change (make_spline (et_make (Z.to_nat max_datapoints) logEmin logEmax) r junk) with (make_spline energy_table r junk) in K.
    rewrite E in K. destruct K as (s' & K & L). exists s'. rewrite A. split; [exact H|]. split; [exact K | exact L].
  Qed.
End Any.

(** ** Over the reals both have a value at every energy *)
Theorem C66_vetable_total p t c junk : key_ok p t ->
  exists r s s', range_table p t c = Ok r /\ make_spline energy_table r junk = Ok s /\
    range_table_V p t c = Ok r /\ make_splineV energy_table_V r junk = Ok s' /\
    forall x : R, (exists v, spline_eval s x = Ok v /\ spline_evalV s' x = Ok v) /\
      exists d, spline_deriv s x = Ok d /\ spline_derivV s' x = Ok d.
Proof.
  intros K. destruct (range_table_ok p t c K) as (r & Er & L). destruct (make_spline_ok r junk L) as (s & Es & O & _).
  destruct (C66_vetable_range p t c r s junk Er Es) as (s' & A & B & C & D). exists r, s, s'.
  split; [exact Er|]. split; [exact Es|]. split; [exact A|]. split; [exact B|]. intros x.
  destruct (spline_eval_ok s x O) as [v Ev]. destruct (spline_deriv_ok s x O) as [d Ed].
  split; [exists v; split; [exact Ev | exact (C x v Ev)] | exists d; split; [exact Ed | exact (D x d Ed)]].
Qed.

Example C66_vetable_case : exists r s' v, range_table_V (carbon 5) (water 1) conf = Ok r /\
  make_splineV energy_table_V r (0%R, 0%R) = Ok s' /\ spline_evalV s' 5%R = Ok v.
Proof.
  destruct (C66_vetable_total (carbon 5) (water 1) conf (0%R, 0%R)) as (r & s & s' & _ & _ & A & B & C); [apply legit_key; auto with cases|].
  destruct (C 5%R) as [(v & _ & E) _]. exists r, s', v. split; [exact A|]. split; [exact B | exact E].
Qed.
Print Assumptions C66_vetable_tables.
Print Assumptions C66_vetable_spline.
Print Assumptions C66_vetable_range.
Print Assumptions C66_vetable_total.
Print Assumptions C66_vetable_case.
