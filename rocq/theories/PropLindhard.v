(** * C54: the Lindhard-Sorensen correction from phase shifts *)
From Coq Require Import ZArith Reals List Bool Lra Lia.
From Verif Require Import Num NumR Structures Calculations EnergyOutProofs PropCorr PropSrim Lindhard TrigR PropKin.
Import ListNotations.
Local Open Scope R_scope.

(** ** C54: the sums over the angular momenta *)
(** f n + f (n+1) + .. (m terms) *)
Fixpoint sum_from (f : Z -> R) (n : Z) (m : nat) : R :=
  match m with O => 0 | S m' => f n + sum_from f (n + 1) m' end.
Definition sin2 (x : R) : R := sin x * sin x.

(** the terms of Lindhard and Sorensen's sums for a phase shift function d *)
Definition L_term (eta : R) (d : Z -> R) (k : Z) : R :=
  let n := IZR k in
  n / (eta * eta) * ((n + 1) / (2 * n + 1) * sin2 (d (- k)%Z - d (- k - 1)%Z)
                     + (n - 1) / (2 * n - 1) * sin2 (d k - d (k - 1)%Z)
                     + 1 / (4 * n * n - 1) * sin2 (d k - d (- k)%Z)) - 1 / n.
Definition X_term (eta : R) (d : Z -> R) (k : Z) : R :=
  let n := IZR k in
  n / (eta * eta) * ((n - 1) * (n - 2) / ((2 * n - 1) * (2 * n - 3)) * sin2 (d k - d (k - 2)%Z)
                     + (n + 1) * (n + 2) / ((2 * n + 1) * (2 * n + 3)) * sin2 (d (- k)%Z - d (- k - 2)%Z)
                     + 2 * (n - 1) / ((2 * n - 3) * (4 * n * n - 1)) * sin2 (d k - d (- k + 1)%Z)
                     + (n + 1) / (2 * n + 1) * (1 / (4 * n * n - 1) + 1 / (4 * (n + 1) * (n + 1) - 1)) * sin2 (d k - d (- k - 1)%Z))
  - 2 / n.

(** the values of a phase function at the integers *)
Definition known (ph : R -> option R) (d : Z -> R) (k : Z) : Prop := ph (IZR k) = Some (d k).
Definition values (ph : R -> option R) (k : Z) : R := match ph (IZR k) with Some v => v | None => 0 end.
Lemma value_known ph k v : ph (IZR k) = Some v -> v = values ph k /\ known ph (values ph) k.
Proof. intros E. unfold known, values. rewrite E. auto. Qed.

Lemma lits : Rlit 1.0 = 1 /\ Rlit 2.0 = 2 /\ Rlit 4.0 = 4 /\ Rlit 3.0 = 3 /\ Rlit 0 = 0 /\ Rlit 1 = 1 /\ Rlit 2 = 2 /\ Rlit 4 = 4 /\ Rlit 0.5 = 1 / 2 /\ Rlit (-2.0) = -2 /\ Rlit 0.0 = 0 /\ Rlit 10.0 = 10 /\ Rlit 0.2 = 1 / 5.
Proof. repeat split; dec_norm; lra. Qed.
Ltac lits := destruct lits as (L10 & L20 & L40 & L30 & L0 & L1 & L2 & L4 & L05 & LM2 & L00 & L100 & L02); rewrite ?L10, ?L20, ?L40, ?L30, ?L0, ?L1, ?L2, ?L4, ?L05, ?LM2, ?L00, ?L100, ?L02.

Lemma loop_sum ph eta : eta <> 0 -> forall m n sum dmk dkm1 v, (1 <= n)%Z ->
  ((1 < n)%Z -> ph (IZR (- n)) = Some dmk /\ ph (IZR (n - 1)) = Some dkm1) ->
  lindhard_loop ph eta m n sum dmk dkm1 = Some v ->
  v = sum + sum_from (L_term eta (values ph)) n m /\
  forall k, (n <= k < n + Z.of_nat m)%Z -> known ph (values ph) k /\ known ph (values ph) (- k)%Z /\ known ph (values ph) (- k - 1)%Z.
Proof.
  intros HE. induction m as [|m IH]; intros n sum dmk dkm1 v N P.
  - cbn [lindhard_loop sum_from]. intros H. injection H as <-. split; [ring|]. intros k K. lia.
  - cbn [lindhard_loop]. cbv zeta. numR. cbn [fsin TrigR]. lits. assert (E1 : - IZR n - 1 = IZR (- n - 1)) by (rewrite minus_IZR, opp_IZR; reflexivity). rewrite E1, <- (opp_IZR n).
    destruct (ph (IZR n)) as [d0|] eqn:D0; [|discriminate]. destruct (ph (IZR (- n - 1))) as [d1|] eqn:D1; [|discriminate]. cbn [obind].
    assert (D2 : (if (n =? 1)%Z then ph (IZR (- n)) else Some dmk) = ph (IZR (- n))).
    { destruct (Z.eqb_spec n 1); [reflexivity|]. symmetry. apply P. lia. }
    rewrite D2. destruct (ph (IZR (- n))) as [d2|] eqn:D2'; [|discriminate]. cbn [obind]. intros H.
    apply IH in H; [|lia|].
    2:{ intros _. split; [replace (- (n + 1))%Z with (- n - 1)%Z by lia; exact D1|replace (n + 1 - 1)%Z with n by lia; exact D0]. }
    destruct H as [HV HK]. destruct (value_known _ _ _ D0) as [V0 K0]. destruct (value_known _ _ _ D1) as [V1 K1]. destruct (value_known _ _ _ D2') as [V2 K2]. split.
    + rewrite HV. cbn [sum_from]. rewrite <- !Rplus_assoc. f_equal. unfold L_term. cbv zeta. rewrite <- V0, <- V1, <- V2.
      assert (NR : 1 <= IZR n) by (apply IZR_le; exact N). unfold sin2.
      assert (Q : 4 * IZR n * IZR n - 1 <> 0) by nra.
      destruct (Z.gtb_spec n 1) as [G|G].
      * destruct (P ltac:(lia)) as [_ Pm]. destruct (value_known _ _ _ Pm) as [Vm _]. rewrite <- Vm. field. repeat split; try lra; exact Q.
      * assert (n = 1)%Z by lia. subst n. field. repeat split; try lra; exact HE.
    + intros k K. destruct (Z.eq_dec k n) as [->|NE]; [auto|]. apply HK. lia.
Qed.

Lemma X_loop_sum ph eta : eta <> 0 -> forall m n sum dmk dmkp1 dkm1 dkm2 v, (1 <= n)%Z ->
  ((1 < n)%Z -> ph (IZR (- n)) = Some dmk /\ ph (IZR (- n + 1)) = Some dmkp1 /\ ph (IZR (n - 1)) = Some dkm1) ->
  ((2 < n)%Z -> ph (IZR (n - 2)) = Some dkm2) ->
  lindhard_X_loop ph eta m n sum dmk dmkp1 dkm1 dkm2 = Some v ->
  v = sum + sum_from (X_term eta (values ph)) n m /\
  forall k, (n <= k < n + Z.of_nat m)%Z ->
    known ph (values ph) k /\ known ph (values ph) (- k)%Z /\ known ph (values ph) (- k - 1)%Z /\ known ph (values ph) (- k - 2)%Z.
Proof.
  intros HE. induction m as [|m IH]; intros n sum dmk dmkp1 dkm1 dkm2 v N P P2.
  - cbn [lindhard_X_loop sum_from]. intros H. injection H as <-. split; [ring|]. intros k K. lia.
  - cbn [lindhard_X_loop]. cbv zeta. numR. cbn [fsin TrigR]. lits.
    assert (E1 : - IZR n - 1 = IZR (- n - 1)) by (rewrite minus_IZR, opp_IZR; reflexivity). assert (E2 : - IZR n - 2 = IZR (- n - 2)) by (rewrite minus_IZR, opp_IZR; reflexivity). rewrite E1, E2.
    destruct (ph (IZR n)) as [d0|] eqn:D0; [|discriminate]. destruct (ph (IZR (- n - 1))) as [d1|] eqn:D1; [|discriminate]. cbn [obind].
    destruct (ph (if (n =? 1)%Z then - IZR n else IZR n)) as [d2'|] eqn:D2'; [|discriminate]. destruct (ph (IZR (- n - 2))) as [d3|] eqn:D3; [|discriminate]. cbn [obind].
    assert (D2 : ph (IZR (- n)) = Some (if (n >? 1)%Z then dmk else d2')).
    { destruct (Z.gtb_spec n 1) as [G|G]; [apply P; lia|]. assert (n = 1)%Z by lia. subst n. rewrite opp_IZR. exact D2'. }
    set (d2 := if (n >? 1)%Z then dmk else d2') in *. intros H. apply IH in H; [|lia| |].
    2:{ intros _. split; [replace (- (n + 1))%Z with (- n - 1)%Z by lia; exact D1|]. split; [replace (- (n + 1) + 1)%Z with (- n)%Z by lia; exact D2|replace (n + 1 - 1)%Z with n by lia; exact D0]. }
    2:{ intros G. replace (n + 1 - 2)%Z with (n - 1)%Z by lia. apply P. lia. }
    destruct H as [HV HK]. destruct (value_known _ _ _ D0) as [V0 K0]. destruct (value_known _ _ _ D1) as [V1 K1]. destruct (value_known _ _ _ D2) as [V2 K2]. destruct (value_known _ _ _ D3) as [V3 K3].
    split.
    + rewrite HV. cbn [sum_from]. rewrite <- !Rplus_assoc. f_equal. unfold X_term. cbv zeta. rewrite <- V0, <- V1, <- V2, <- V3. rewrite <- E1, <- E2. clear HV HK IH V0 V1 V2 V3.
      assert (NR : 1 <= IZR n) by (apply IZR_le; exact N). unfold sin2. clearbody d2.
      assert (Q : 4 * IZR n * IZR n - 1 <> 0) by nra. assert (Q1 : 4 * (IZR n + 1) * (IZR n + 1) - 1 <> 0) by nra.
      assert (Q3 : 2 * IZR n - 3 <> 0).
      { intros C. assert (D : IZR (2 * n) = 3) by (rewrite mult_IZR; lra). apply eq_IZR in D. lia. }
      generalize (sin (d0 - d1)), (sin (d2 - d3)). intros s1 s2.
      destruct (Z.gtb_spec n 1) as [G|G].
      * destruct (P ltac:(lia)) as (_ & Pm & _). destruct (value_known _ _ _ Pm) as [Vm _]. rewrite <- Vm. generalize (sin (d0 - dmkp1)). intros s3.
        destruct (Z.gtb_spec n 2) as [G2|G2].
        -- destruct (value_known _ _ _ (P2 ltac:(lia))) as [V4 _]. rewrite <- V4. generalize (sin (d0 - dkm2)). intros s4. generalize dependent (IZR n). intros x; intros. field. repeat split; try lra; assumption.
        -- assert (n = 2)%Z by lia. subst n. field. exact HE.
      * assert (n = 1)%Z by lia. subst n. destruct (Z.gtb_spec 1 2); [lia|]. field. exact HE.
    + intros k K. destruct (Z.eq_dec k n) as [->|NE]; [auto|]. apply HK. lia.
Qed.

(** the quantities that enter: Lorentz factor, velocity, nuclear radius in Compton wavelengths,
    Sommerfeld parameter *)
Definition lorentz (T : R) : R := 1 + T / (9314940954 / 10000000).
Definition beta2 (T : R) : R := 1 - 1 / (lorentz T * lorentz T).
Definition radius (A : R) : R := Rpower A (1 / 3) * (305573356675 / 10 ^ 14).
Definition sommerfeld (Z T : R) : R := Z / (137035999139 / 10 ^ 9) / sqrt (beta2 T).
Definition momentum_radius (A T : R) : R := sqrt (beta2 T) * lorentz T * radius A.

Lemma ls_gamma_R p : ls_gamma p = lorentz (pT p).
Proof. unfold ls_gamma, lorentz, atomic_mass_unit. numR. dec_norm. lra. Qed.
Lemma ls_beta2_R p : ls_beta2 p = beta2 (pT p).
Proof. unfold ls_beta2, beta2. rewrite ls_gamma_R. numR. lits. reflexivity. Qed.
Lemma ls_rho_R p : ls_rho p = radius (pA p).
Proof.
  unfold ls_rho, radius, ls_compton. numR. lits. unfold Rpower. replace (ln (pA p) / 3) with (1 / 3 * ln (pA p)) by field.
  f_equal. dec_norm. field.
Qed.
Lemma ls_eta_R p : ls_eta p = sommerfeld (pZ p) (pT p).
Proof. unfold ls_eta, sommerfeld, fine_structure. rewrite ls_beta2_R. numR. unfold Rdiv. f_equal. lits. dec_norm. field. Qed.
Lemma ls_bgR_R p : ls_bgR p = momentum_radius (pA p) (pT p).
Proof. unfold ls_bgR, momentum_radius. rewrite ls_beta2_R, ls_gamma_R, ls_rho_R. reflexivity. Qed.

Lemma beta2_pos T : 0 < T -> 0 < beta2 T < 1.
Proof.
  intros H. assert (G : 1 < lorentz T) by (unfold lorentz; assert (0 < T / (9314940954 / 10000000)) by (apply pos_quot; lra); lra).
  unfold beta2. assert (Q : 1 < lorentz T * lorentz T) by nra. assert (0 < 1 / (lorentz T * lorentz T) < 1); [|lra].
  split; [apply pos_quot; lra|]. apply Rmult_lt_reg_r with (lorentz T * lorentz T); [lra|]. unfold Rdiv. rewrite Rmult_assoc, Rinv_l by lra. lra.
Qed.
Lemma sommerfeld_pos Z T : 0 < Z -> 0 < T -> 0 < sommerfeld Z T.
Proof. intros HZ HT. unfold sommerfeld. pose proof (beta2_pos T HT). apply pos_quot; [apply pos_quot; lra|apply sqrt_lt_R0; lra]. Qed.

(** below 10 / radius the correction is the sum over k = 1 .. 4999, each phase shift being the one of
    its own angular momentum although only two are computed in each pass *)
Theorem C54_sum fuel p L : 0 < pZ p -> 0 < pT p -> lorentz (pT p) < 10 / radius (pA p) -> bethek_lindhard fuel p = Some L ->
  exists d : Z -> R, (forall k, (-5000 <= k <= 4999)%Z -> k <> 0%Z -> phase fuel p (IZR k) = Some (d k)) /\
    L = sum_from (L_term (sommerfeld (pZ p) (pT p)) d) 1 (Z.to_nat 4999) + beta2 (pT p) / 2.
Proof.
  unfold bethek_lindhard. assert (ME : Z.of_nat (Z.to_nat 4999) = 4999%Z) by (apply Z2Nat.id; lia). revert ME. generalize (Z.to_nat 4999). intros m ME HZ HT HG. rewrite ls_gamma_R, ls_rho_R, ls_eta_R, ls_bgR_R, ls_beta2_R. numR. lits.
  destruct (Rltb_spec (lorentz (pT p)) (10 / radius (pA p))) as [_|C]; [|contradiction].
  destruct (lindhard_loop _ _ _ _ _ _ _) as [S|] eqn:E; [|discriminate]. cbn [obind]. intros H. injection H as <-.
  apply loop_sum in E; [|apply Rgt_not_eq, sommerfeld_pos; assumption|lia|intros C; lia]. destruct E as [ES K].
  exists (values (phase fuel p)). split; [|rewrite ES; field].
  intros k B NZ. destruct (Z.lt_ge_cases 0 k).
  - destruct (K k) as (K1 & _ & _); [lia|exact K1].
  - destruct (Z.eq_dec k (-5000)) as [->|NE]; [destruct (K 4999%Z) as (_ & _ & K1); [lia|exact K1]|].
    destruct (K (- k)%Z) as (_ & K1 & _); [lia|]. rewrite Z.opp_involutive in K1. exact K1.
Qed.
Print Assumptions C54_sum.

(** above, the limit of an extended nucleus *)
Theorem C54_ultrarelativistic fuel p : 10 / radius (pA p) <= lorentz (pT p) ->
  bethek_lindhard fuel p = Some (- ln (momentum_radius (pA p) (pT p)) - 1 / 5 + beta2 (pT p) / 2).
Proof.
  intros H. unfold bethek_lindhard. generalize (Z.to_nat 4999). intros m. rewrite ls_gamma_R, ls_rho_R, ls_bgR_R, ls_beta2_R. numR. lits.
  destruct (Rltb_spec (lorentz (pT p)) (10 / radius (pA p))) as [C|_]; [lra|]. cbn [obind]. f_equal. field.
Qed.
Print Assumptions C54_ultrarelativistic.

(** the straggling correction: twice the above minus a sum over k = 1 .. 999, cut off at 0 *)
Theorem C54_X fuel p X : 0 < pZ p -> 0 < pT p -> bethek_lindhard_X fuel p = Some X ->
  exists (d : Z -> R) L, bethek_lindhard fuel p = Some L /\ (forall k, (-1001 <= k <= 999)%Z -> k <> 0%Z -> phase fuel p (IZR k) = Some (d k)) /\
    X = Rmax 0 (2 * L - sum_from (X_term (sommerfeld (pZ p) (pT p)) d) 1 (Z.to_nat 999) - beta2 (pT p)).
Proof.
  unfold bethek_lindhard_X. assert (ME : Z.of_nat (Z.to_nat 999) = 999%Z) by (apply Z2Nat.id; lia). revert ME. generalize (Z.to_nat 999). intros m ME HZ HT. rewrite ls_eta_R, ls_beta2_R. numR. lits.
  destruct (lindhard_X_loop _ _ _ _ _ _ _ _ _) as [S|] eqn:E; [|discriminate]. cbn [obind].
  destruct (bethek_lindhard fuel p) as [L|]; [|discriminate]. cbn [obind]. intros H. injection H as <-.
  apply X_loop_sum in E; [|apply Rgt_not_eq, sommerfeld_pos; assumption|lia|intros C; lia|intros C; lia]. destruct E as [ES K].
  exists (values (phase fuel p)), L. split; [reflexivity|]. split.
  - intros k B NZ. destruct (Z.lt_ge_cases 0 k).
    + destruct (K k) as (K1 & _); [lia|exact K1].
    + destruct (Z.eq_dec k (-1001)) as [->|NE]; [destruct (K 999%Z) as (_ & _ & _ & K1); [lia|exact K1]|].
      destruct (Z.eq_dec k (-1000)) as [->|NE']; [destruct (K 999%Z) as (_ & _ & K1 & _); [lia|exact K1]|].
      destruct (K (- k)%Z) as (_ & K1 & _); [lia|]. rewrite Z.opp_involutive in K1. exact K1.
  - rewrite ES, Rplus_0_l. unfold Rmax. destruct (Rleb_spec 0 (2 * L - sum_from (X_term (sommerfeld (pZ p) (pT p)) (values (phase fuel p))) 1 m - beta2 (pT p))) as [B|B];
    destruct (Rle_dec 0 _) as [B'|B']; try contradiction; reflexivity.
Qed.
Print Assumptions C54_X.

(** the loops for any phase function that has values at the integers and any number of passes *)
Theorem C54_loop (d : Z -> R) ph eta m : eta <> 0 -> (forall k : Z, k <> 0%Z -> ph (IZR k) = Some (d k)) ->
  lindhard_loop ph eta m 1 0 0 0 = Some (sum_from (L_term eta d) 1 m) /\
  lindhard_X_loop ph eta m 1 0 0 0 0 0 = Some (sum_from (X_term eta d) 1 m).
Proof.
  intros HE H.
  assert (D : forall m n s x y, (1 <= n)%Z -> exists v, lindhard_loop ph eta m n s x y = Some v).
  { clear m. induction m as [|m IH]; intros n s x y N; [eexists; reflexivity|]. cbn [lindhard_loop]. cbv zeta. numR. lits.
    replace (- IZR n - 1) with (IZR (- n - 1)) by (rewrite minus_IZR, opp_IZR; reflexivity). rewrite <- (opp_IZR n), !H by lia. cbn [obind].
    destruct (n =? 1)%Z; cbn [obind]; apply IH; lia. }
  assert (D' : forall m n s x y z t, (1 <= n)%Z -> exists v, lindhard_X_loop ph eta m n s x y z t = Some v).
  { clear m. induction m as [|m IH]; intros n s x y z t N; [eexists; reflexivity|]. cbn [lindhard_X_loop]. cbv zeta. numR. lits.
    replace (- IZR n - 1) with (IZR (- n - 1)) by (rewrite minus_IZR, opp_IZR; reflexivity). replace (- IZR n - 2) with (IZR (- n - 2)) by (rewrite minus_IZR, opp_IZR; reflexivity).
    replace (if (n =? 1)%Z then - IZR n else IZR n) with (IZR (if (n =? 1)%Z then - n else n)) by (destruct (n =? 1)%Z; [apply opp_IZR|reflexivity]).
    rewrite !H by (destruct (n =? 1)%Z; lia). cbn [obind]. apply IH; lia. }
  assert (V : forall k, k <> 0%Z -> values ph k = d k) by (intros k K; unfold values; rewrite H by exact K; reflexivity).
  assert (X : forall f g, (forall k, (1 <= k)%Z -> f k = g k) -> forall m n, (1 <= n)%Z -> sum_from f n m = sum_from g n m).
  { intros f g E. clear m. induction m as [|m IH]; intros n N; [reflexivity|]. cbn [sum_from]. rewrite E, IH by lia. reflexivity. }
  destruct (D m 1%Z 0 0 0 ltac:(lia)) as [v E]. destruct (D' m 1%Z 0 0 0 0 0 ltac:(lia)) as [v' E']. rewrite E, E'.
  apply loop_sum in E; [|exact HE|lia|intros C; lia]. apply X_loop_sum in E'; [|exact HE|lia|intros C; lia|intros C; lia].
  destruct E as [-> _]. destruct E' as [-> _]. rewrite !Rplus_0_l. split; f_equal; apply X; try lia; intros k K.
  - unfold L_term. cbv zeta. rewrite (V k), (V (- k)%Z), (V (- k - 1)%Z) by lia. destruct (Z.eq_dec k 1) as [->|NE]; [|rewrite V by lia; reflexivity]. field. exact HE.
  - unfold X_term. cbv zeta. rewrite (V k), (V (- k)%Z), (V (- k - 1)%Z), (V (- k - 2)%Z) by lia.
    destruct (Z.eq_dec k 1) as [->|NE]; [field; exact HE|]. rewrite (V (- k + 1)%Z) by lia. destruct (Z.eq_dec k 2) as [->|NE']; [field; exact HE|]. rewrite V by lia. reflexivity.
Qed.
Print Assumptions C54_loop.

(** ** A concrete case: phase shifts 0 for positive and a right angle for negative k, three passes;
    and lead above the limit of its extended nucleus *)
Example C54_case :
  lindhard_loop (fun k => Some (if Rlt_dec 0 k then 0 else PI / 2)) 1 3 1 0 0 0 = Some (1 / 3 + 2 / 15 + 3 / 35 - (1 + 1 / 2 + 1 / 3)) /\
  exists L, bethek_lindhard 0 (mkProj 208 82 82 2000000) = Some L /\ L < 0.
Proof.
  split.
  - destruct (C54_loop (fun k => if (0 <? k)%Z then 0 else PI / 2) (fun k => Some (if Rlt_dec 0 k then 0 else PI / 2)) 1 3) as [E _]; [lra| |].
    { intros k _. f_equal. destruct (Z.ltb_spec 0 k) as [L|L]; destruct (Rlt_dec 0 (IZR k)) as [P|P]; try reflexivity; [apply IZR_lt in L; contradiction|apply IZR_le in L; lra]. }
    rewrite E. f_equal. cbn [sum_from]. unfold L_term, sin2. cbn. rewrite !Rminus_eq_0, Rminus_0_l, sin_neg, sin_PI2, sin_0. field.
  - assert (RA : 1 / 100 < radius 208).
    { unfold radius. assert (P : 5 <= Rpower 208 (1 / 3)).
      { replace 5 with (Rpower (5 ^ 3) (1 / 3)).
        - left. apply Rlt_Rpower_l; lra.
        - rewrite <- (Rpower_pow 3 5) by lra. rewrite Rpower_mult. replace (INR 3 * (1 / 3)) with 1 by (cbn [INR]; field). apply Rpower_1. lra. }
      lra. }
    assert (GL : 2000 < lorentz 2000000) by (unfold lorentz; lra).
    assert (B2 : 1 / 4 <= beta2 2000000 < 1).
    { split; [|apply beta2_pos; lra]. unfold beta2. assert (1 / (lorentz 2000000 * lorentz 2000000) <= 1 / 4); [|lra].
      unfold Rdiv. rewrite !Rmult_1_l. apply Rinv_le_contravar; [lra|]. nra. }
    eexists. rewrite C54_ultrarelativistic; [split; [reflexivity|]|]; cbn [pA pT].
    + assert (MR : exp 1 < momentum_radius 208 2000000).
      { pose proof exp_le_3. assert (SQ : 1 / 2 <= sqrt (beta2 2000000)).
        { replace (1 / 2) with (sqrt (1 / 4)); [apply sqrt_le_1_alt; lra|]. replace (1 / 4) with (1 / 2 * (1 / 2)) by field. apply sqrt_square. lra. }
        unfold momentum_radius. assert (1000 <= sqrt (beta2 2000000) * lorentz 2000000) by nra. nra. }
      apply ln_increasing in MR; [|apply exp_pos]. rewrite ln_exp in MR. lra.
    + assert (10 / radius 208 <= 1000); [|lra]. apply Rmult_le_reg_r with (radius 208); [lra|]. unfold Rdiv. rewrite Rmult_assoc, Rinv_l by lra. lra.
Qed.
