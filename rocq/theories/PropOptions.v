(** * C59: which formula a number in a configuration selects

    config.h:25-60 gives every choice a number; the numbers are written out here. *)
From Coq Require Import ZArith Reals List Bool Lra Lia.
From Verif Require Import Num NumR Structures DataSrim Srim Calculations SpecData DataProofs BoundsProofs PropSrim PropFormula PropFormulaSrim ProtonStopping.
Import ListNotations.
Local Open Scope R_scope.

Definition total {A} (f : A -> R) (l : list A) : R := fold_right Rplus 0 (map f l).
Lemma one_int : fto_int (F:=R) 1 = Some 1%Z.
Proof.
  destruct (proj_Z_int proton) as [C _]; [unfold proj_Z_ok; cbn; lra|]. cbn [pZ proton] in C. rewrite C. f_equal.
  destruct (Rfloor_bound 1) as [B1 B2]. assert (0 < Rfloor_Z 1)%Z by (apply lt_IZR; lra). apply le_IZR in B1. lia.
Qed.

(** the low-energy stopping power of protons is Bragg's sum of the fits of 1995 when low_energy is 1 and of 1985 otherwise *)
Theorem C59_low_energy p m c : pZ p = 1 -> 0 < pT p -> (forall t, In t (m_atoms m) -> (1 <= tZ t)%Z) ->
  let table := if (c_low c =? 1)%Z then pse_95 else proton_stopping_coef in
  sezi_dedx_e (F:=R) p m c =
    Ok (602.2140857 * total (fun t => wfrac m t * proton_stopping table (tZ t) (1000 * pT p) / tA t) (m_atoms m)).
Proof.
  intros P T0 HT table. unfold sezi_dedx_e. cbv zeta. rewrite P, one_int. cbn [cast bind].
  assert (G : forall l s, (forall t, In t l -> (1 <= tZ t)%Z) ->
    ofold (fun sum t => d <- srim_dedx_e (F:=R) 1 (tZ t) (pT p) (c_low c =? srim_95)%Z ;; Ok (sum + wfrac m t * d / tA t)%num) l s
      = Ok (s + total (fun t => wfrac m t * proton_stopping table (tZ t) (1000 * pT p) / tA t) l)).
  { unfold total. induction l as [|t l IH]; intros s H; cbn [ofold map fold_right]; [f_equal; ring|].
    destruct (C59_helium (tZ t) (pT p) (c_low c =? srim_95)%Z) as [V _]; [apply H; now left|exact T0|]. rewrite V. cbn [bind].
    rewrite IH by (intros; apply H; now right). f_equal. numR. unfold table, fit_table, srim_95. ring. }
  rewrite G by exact HT. cbn [bind]. f_equal. unfold Avogadro. numR. set (s := total _ _). clearbody s.
  replace (Rlit 100) with 100 by (dec_norm; lra). replace (Rlit 0.0) with 0 by (dec_norm; lra). replace (Rlit 6.022140857) with 6.022140857 by reflexivity. decs. lra.
Qed.
Print Assumptions C59_low_energy.

(** the corrections are switched off by the bits 0, 1, 2 and 3 of a byte *)
Theorem C59_correction_bits (c : Config R) : (0 <= c_corr c <= 255)%Z ->
  corr_has c no_barkas = Z.testbit (c_corr c) 0 /\ corr_has c no_lindhard = Z.testbit (c_corr c) 1 /\
  corr_has c no_shell_correction = Z.testbit (c_corr c) 2 /\ corr_has c no_highenergy = Z.testbit (c_corr c) 3.
Proof.
  intros B. unfold corr_has. assert (H : exists n, c_corr c = Z.of_nat n /\ (n < 256)%nat) by (exists (Z.to_nat (c_corr c)); lia).
  destruct H as (n & -> & N). clear B c.
  assert (A : forallb (fun n => let z := Z.of_nat n in
     Bool.eqb (negb (Z.land z no_barkas =? 0)%Z) (Z.testbit z 0) && Bool.eqb (negb (Z.land z no_lindhard =? 0)%Z) (Z.testbit z 1) &&
     Bool.eqb (negb (Z.land z no_shell_correction =? 0)%Z) (Z.testbit z 2) && Bool.eqb (negb (Z.land z no_highenergy =? 0)%Z) (Z.testbit z 3)) (seq 0 256) = true)
    by (vm_compute; reflexivity).
  rewrite forallb_forall in A. specialize (A n). rewrite in_seq in A. specialize (A ltac:(lia)). cbv zeta in A.
  rewrite !andb_true_iff, !Bool.eqb_true_iff in A. tauto.
Qed.
Print Assumptions C59_correction_bits.

(** the two fits differ, here in a coefficient of nitrogen; the value 5 of corrections switches off the Barkas and shell terms *)
Example C59_options_case : let c := mkConfig 1 5 1 1 255 1 in
  corr_has c no_barkas = true /\ corr_has c no_lindhard = false /\ corr_has c no_shell_correction = true /\ corr_has c no_highenergy = false /\
  fit_row pse_95 7 4 <> fit_row proton_stopping_coef 7 4.
Proof.
  intros c. repeat split. unfold fit_row. change (Z.to_nat (Z.min 7 92 - 1)) with 6%nat. cbn [nth pse_95 proton_stopping_coef]. dec_norm. lra.
Qed.
