(** * Support for C12-C17: what a successful calculate call did; stacks of layers *)
From Coq Require Import ZArith Reals List Bool Lra Lia.
From Verif Require Import Num NumR Structures EnergyTable Spline Integrator Calculations NucData
  Reactions Storage Catima CacheProofs CacheFresh.
Import ListNotations.

Section Calc.
  Context {F : Type} {N : Num F}.
  Variable junk : nat -> F * F.

  Definition too_low (T : F) : bool := fltb T Ezero && fltb T (fsub Ezero numeric_epsilon).

  (** the part of calculate that depends on the outgoing energy being above the threshold *)
  Definition exit_part p t c (d : DataPoint F) (w1 : world F) rg Eout dEdxo sE sa tof (w2 : world F) : Prop :=
    (fltb Eout Ezero = true /\ dEdxo = lit 0.0 /\ sE = lit 0.0 /\ sa = lit 0.0 /\ tof = lit 0.0 /\ w2 = w1) \/
    (fltb Eout Ezero = false /\
     exists do_ sa1, interp_deriv (dp_range_spline d) Eout = Ok do_ /\ dEdxo = fdiv (pA p) do_ /\
       sigma_E_of p (dp_rs_spline d) (pT p) Eout dEdxo = Ok sE /\
       (if (c_scat c =? sc_atima)%Z then sigma_a_of (dp_av_spline d) (pT p) Eout else Ok (lit 0.0)) = Ok sa1 /\
       (if negb (c_scat c =? sc_atima)%Z && fltb (m_th t) rg then angular_straggling junk p t c w1
        else Ok (sa1, w1)) = Ok (sa, w2) /\
       calculate_tof_from_E p Eout t (w_default w2) = Ok tof).

  Lemma calculate_inv p t c w r w' : calculate junk p t c w = Ok (r, w') ->
    (too_low (pT p) = true /\ r = Result0 /\ w' = w) \/
    (too_low (pT p) = false /\ exists d w1 rg dr sv,
       lookup junk p t c w = Ok (d, w1) /\
       interp_eval (dp_range_spline d) (pT p) = Ok rg /\
       interp_deriv (dp_range_spline d) (pT p) = Ok dr /\
       interp_eval (dp_rs_spline d) (pT p) = Ok sv /\
       ((feqb (m_th t) (lit 0) = true /\ w' = w1 /\
         r = mkResult (pT p) (pT p) (lit 0.0) rg (fdiv (pA p) dr) (fdiv (pA p) dr) (lit 0.0) (lit 0.0)
               (fsqrt sv) (lit 0.0) (lit 0.0) (lit 0.0) (lit 1.0)) \/
        (feqb (m_th t) (lit 0) = false /\
         exists Eout dEdxo sE sa tof w2 vx w3 cov w4 sp,
           energy_out_sp (dp_range_spline d) (pT p) (m_th t) = Ok Eout /\
           exit_part p t c d w1 rg Eout dEdxo sE sa tof w2 /\
           angular_variance junk p t c 2 w2 = Ok (vx, w3) /\
           angular_variance junk p t c 1 w3 = Ok (cov, w4) /\
           nonreaction_rate junk p t c w4 = Ok (sp, w') /\
           r = mkResult (pT p) Eout (fmul (fsub (pT p) Eout) (pA p)) rg (fdiv (pA p) dr) dEdxo sE sa
                 (fsqrt sv) (fsqrt vx) cov tof sp))).
  Proof.
    unfold calculate. fold (too_low (pT p)). intros H.
    destruct (too_low (pT p)).
    - left. inversion H; subst. auto.
    - right. split; [reflexivity|].
      apply bind_ok in H. destruct H as ([d w1] & L & H).
      apply bind_ok in H. destruct H as (rg & RG & H).
      apply bind_ok in H. destruct H as (dr & DR & H).
      apply bind_ok in H. destruct H as (sv & SV & H).
      exists d, w1, rg, dr, sv. do 4 (split; [assumption|]).
      destruct (feqb (m_th t) (lit 0)).
      + left. injection H as H1 H2. subst. auto.
      + right. split; [reflexivity|].
        apply bind_ok in H. destruct H as (Eout & EO & H).
        apply bind_ok in H. destruct H as ([[[[dEdxo sE] sa] tof] w2] & X & H).
        apply bind_ok in H. destruct H as ([vx w3] & VX & H).
        apply bind_ok in H. destruct H as ([cov w4] & CV & H).
        apply bind_ok in H. destruct H as ([sp w5] & SP & H).
        injection H as H1 H2. subst w5.
        exists Eout, dEdxo, sE, sa, tof, w2, vx, w3, cov, w4, sp.
        split; [assumption|]. split; [|auto].
        unfold exit_part. destruct (fltb Eout Ezero).
        * left. injection X as <- <- <- <- <-. auto 10.
        * right. split; [reflexivity|].
          apply bind_ok in X. destruct X as (do_ & DO & X).
          apply bind_ok in X. destruct X as (sE' & SE & X).
          apply bind_ok in X. destruct X as (sa1 & SA1 & X).
          apply bind_ok in X. destruct X as ([sa2 w2'] & SA2 & X).
          apply bind_ok in X. destruct X as (tof' & TOF & X).
          injection X as <- <- <- <- <-. exists do_, sa1. auto 10.
  Qed.

  (** one result per layer, in order *)
  Inductive stack (p : Projectile F) (c : Config F)
    : world F -> F -> list (Material F) -> list (Result F) -> F -> world F -> Prop :=
  | stack_nil w e : stack p c w e [] [] e w
  | stack_cons w e m ms r rs e' w1 w' :
      calculate junk (at_T p e) m c w = Ok (r, w1) ->
      stack p c w1 (r_Eout r) ms rs e' w' ->
      stack p c w e (m :: ms) (r :: rs) e' w'.

  Definition totals (ms : list (Material F)) (rs : list (Result F)) (t0 : Result F) : Result F :=
    fold_left (fun tot mr => layer_update (fst mr) (snd mr) tot) (combine ms rs) t0.

  Lemma layers_stack p c : forall ms w e tot rs e' tot' w',
    layers_loop junk p c ms e tot w = Ok (rs, e', tot', w') <->
    stack p c w e ms rs e' w' /\ tot' = totals ms rs tot.
  Proof.
    induction ms as [|m ms IH]; intros w e tot rs e' tot' w'; cbn [layers_loop].
    - split.
      + intros H. injection H as <- <- <- <-. split; [constructor|reflexivity].
      + intros [H ->]. inversion H; subst. reflexivity.
    - split.
      + intros H. apply bind_ok in H. destruct H as ([r w1] & HC & H).
        apply bind_ok in H. destruct H as ([[[rs2 e2] tot2] w2] & HL & H). injection H as <- <- <- <-.
        apply IH in HL. destruct HL as (HS & ->). split; [econstructor; eauto|reflexivity].
      + intros [H ->]. inversion H as [|w0 e0 m0 ms0 r rs0 e0' w1 w0' HC HS]; subst. rewrite HC. cbn [bind].
        assert (X : layers_loop junk p c ms (r_Eout r) (layer_update m r tot) w1 =
                    Ok (rs0, e', totals ms rs0 (layer_update m r tot), w')).
        { apply IH. auto. }
        rewrite X. reflexivity.
  Qed.

  Lemma stack_length p c w e ms rs e' w' : stack p c w e ms rs e' w' -> length rs = length ms.
  Proof. induction 1; simpl; auto. Qed.

  Lemma stack_app p c : forall l1 l2 w e rs e' w',
    stack p c w e (l1 ++ l2) rs e' w' <->
    exists rs1 rs2 e1 w1, rs = rs1 ++ rs2 /\ stack p c w e l1 rs1 e1 w1 /\ stack p c w1 e1 l2 rs2 e' w'.
  Proof.
    induction l1 as [|m l1 IH]; intros l2 w e rs e' w'; cbn [app].
    - split.
      + intros H. exists [], rs, e, w. split; [reflexivity|]. split; [constructor|assumption].
      + intros (rs1 & rs2 & e1 & w1 & -> & H1 & H2). inversion H1; subst. exact H2.
    - split.
      + intros H. inversion H as [|w0 e0 m0 ms0 r rs0 e0' wa w0' HC HS]; subst. apply IH in HS. destruct HS as (rs1 & rs2 & e1 & w2 & -> & A & B).
        exists (r :: rs1), rs2, e1, w2. split; [reflexivity|]. split; [econstructor; eauto|assumption].
      + intros (rs1 & rs2 & e1 & w1 & -> & H1 & H2). inversion H1 as [|w0 e0 m0 ms0 r rs0 e0' wa w0' HC HS]; subst. cbn [app].
        econstructor; eauto. apply IH. exists rs0, rs2, e1, w1. auto.
  Qed.

  Lemma stack_det p c : forall ms w e rs1 e1 w1 rs2 e2 w2,
    stack p c w e ms rs1 e1 w1 -> stack p c w e ms rs2 e2 w2 -> rs1 = rs2 /\ e1 = e2 /\ w1 = w2.
  Proof.
    induction ms as [|m ms IH]; intros w e rs1 e1 w1 rs2 e2 w2 H1 H2; 
      inversion H1 as [|wa ea ma msa ra rsa ea' wa1 wa' HCa HSa];
      inversion H2 as [|wb eb mb msb rb rsb eb' wb1 wb' HCb HSb]; subst; auto.
    rewrite HCa in HCb. injection HCb as <- <-.
    destruct (IH _ _ _ _ _ _ _ _ HSa HSb) as (-> & -> & ->). auto.
  Qed.

  Lemma stack_at p x c w e ms rs e' w' :
    stack p c w e ms rs e' w' <-> stack (at_T p x) c w e ms rs e' w'.
  Proof.
    split; intros H; induction H; econstructor; eauto.
  Qed.

  Lemma stack_exit p c w e ms rs e' w' : stack p c w e ms rs e' w' ->
    e' = match rs with [] => e | _ => r_Eout (last rs Result0) end.
  Proof.
    induction 1 as [|w e m ms r rs e' w1 w' HC HS IH]; auto.
    rewrite IH. destruct rs; auto.
  Qed.

  Lemma stack_nth p c w e ms rs e' w' : stack p c w e ms rs e' w' ->
    forall i m, nth_error ms i = Some m ->
      exists r ei wi wi', nth_error rs i = Some r /\
        ei = match i with O => e | S j => match nth_error rs j with Some r' => r_Eout r' | None => e end end /\
        calculate junk (at_T p ei) m c wi = Ok (r, wi').
  Proof.
    induction 1 as [|w e m ms r rs e' w1 w' HC HS IH]; intros i m' Hi; [destruct i; discriminate|].
    destruct i as [|i]; cbn in Hi.
    - injection Hi as <-. exists r, e, w, w1. auto.
    - destruct (IH i m' Hi) as (ri & ei & wi & wi' & Hr & He & HC'). exists ri, ei, wi, wi'.
      split; [exact Hr|]. split; [|exact HC']. rewrite He. destruct i; auto. cbn.
      destruct (nth_error rs i) eqn:X; auto. exfalso. apply nth_error_None in X.
      assert (nth_error rs (S i) <> None) by congruence. apply nth_error_Some in H. lia.
  Qed.

  Lemma totals_app ms1 rs1 ms2 rs2 t : length ms1 = length rs1 ->
    totals (ms1 ++ ms2) (rs1 ++ rs2) t = totals ms2 rs2 (totals ms1 rs1 t).
  Proof.
    intros H. unfold totals. revert rs1 t H. induction ms1 as [|m ms1 IH]; intros [|r rs1] t H; cbn in *;
      try discriminate; auto.
  Qed.
End Calc.
