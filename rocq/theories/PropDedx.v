(** * Properties C37 and C38: the stopping power *)
From Coq Require Import ZArith Reals List Bool Lra Lia Permutation.
From Verif Require Import Num NumR Structures EnergyTable Spline Integrator Srim Calculations Storage
  GridProofs InterpProofs BoundsProofs TotalProofs CacheFresh
  DataElements DataSrim DataLSa DataLSahi DataLSXa DataLSXahi Cases.
Import ListNotations.
Local Open Scope R_scope.

(** ** C37: the model used at each energy *)

(** share of the high-energy model between 10 and 30 MeV/u *)
Definition blend (T : R) : R := (T - 10) / 20.

Lemma lit10 : Rlit 10 = 10. Proof. dec_norm. lra. Qed.
Lemma lit30 : Rlit 30 = 30. Proof. dec_norm. lra. Qed.

Theorem C37_zero p m c : pT p <= 0 -> dedx (F:=R) p m c = Ok 0.
Proof.
  intros H. unfold dedx. numR. destruct (Rleb_spec (pT p) (Rlit 0)) as [_|N].
  - f_equal. dec_norm. lra.
  - exfalso. apply N. dec_norm. lra.
Qed.
Print Assumptions C37_zero.

Theorem C37_low p m c : 0 < pT p -> pT p <= 10 ->
  forall s, sezi_dedx_e (F:=R) p m c = Ok s -> dedx p m c = Ok (dedx_n p m + s).
Proof.
  intros H0 H1 s Hs. unfold dedx. rewrite Hs. numR.
  destruct (Rleb_spec (pT p) (Rlit 0)) as [L|_]; [revert L; dec_norm; lra|].
  destruct (Rleb_spec (pT p) (Rlit 10)) as [_|N]; [|exfalso; apply N; rewrite lit10; exact H1].
  cbn [bind]. f_equal. dec_norm. ring.
Qed.
Print Assumptions C37_low.

Theorem C37_high p m c : 30 <= pT p ->
  forall b, bethek_dedx_e (F:=R) p m c = Ok b -> dedx p m c = Ok (dedx_n p m + b).
Proof.
  intros H1 b Hb. unfold dedx. rewrite Hb. numR.
  destruct (Rleb_spec (pT p) (Rlit 0)) as [L|_]; [revert L; dec_norm; lra|].
  destruct (Rleb_spec (pT p) (Rlit 10)) as [L|_]; [rewrite lit10 in L; lra|].
  destruct (Rltb_spec (pT p) (Rlit 30)) as [L|_]; [rewrite lit30 in L; lra|].
  rewrite andb_false_r. cbn [bind]. f_equal. dec_norm. ring.
Qed.
Print Assumptions C37_high.

Theorem C37_between p m c : 10 < pT p -> pT p < 30 ->
  forall s b, sezi_dedx_e (F:=R) p m c = Ok s -> bethek_dedx_e p m c = Ok b ->
  exists e, dedx p m c = Ok (dedx_n p m + e) /\
    e = (1 - blend (pT p)) * s + blend (pT p) * b /\ Rmin s b <= e <= Rmax s b /\
    e - s = (pT p - 10) / 20 * (b - s) /\ b - e = (30 - pT p) / 20 * (b - s).
Proof.
  intros H0 H1 s b Hs Hb. exists ((1 - blend (pT p)) * s + blend (pT p) * b). split; [|split; [reflexivity|split]].
  - unfold dedx. rewrite Hs, Hb. numR.
    destruct (Rleb_spec (pT p) (Rlit 0)) as [L|_]; [revert L; dec_norm; lra|].
    destruct (Rleb_spec (pT p) (Rlit 10)) as [L|_]; [rewrite lit10 in L; lra|].
    destruct (Rltb_spec (Rlit 10) (pT p)) as [_|N]; [|exfalso; apply N; rewrite lit10; exact H0].
    destruct (Rltb_spec (pT p) (Rlit 30)) as [_|N]; [|exfalso; apply N; rewrite lit30; exact H1].
    cbn [bind andb]. f_equal. unfold blend. dec_norm. field.
  - assert (B : 0 < blend (pT p) < 1) by (unfold blend; lra).
    pose proof (Rmin_l s b). pose proof (Rmin_r s b). pose proof (Rmax_l s b). pose proof (Rmax_r s b).
    set (w := blend (pT p)) in *. split; nra.
  - unfold blend. split; field.
Qed.
Print Assumptions C37_between.

(** the electronic part as a function of the energy: where both models are continuous, so is the blend,
    across the switches at 10 and 30 MeV/u as well *)
Definition electronic (s b : R -> R) (T : R) : R :=
  if Rle_dec T 10 then s T else if Rlt_dec T 30 then (1 - blend T) * s T + blend T * b T else b T.

Theorem C37_model p m c (s b : R -> R) :
  (forall T, 0 < T -> sezi_dedx_e (F:=R) (at_T p T) m c = Ok (s T)) ->
  (forall T, 10 < T -> bethek_dedx_e (F:=R) (at_T p T) m c = Ok (b T)) ->
  forall T, 0 < T -> dedx (at_T p T) m c = Ok (dedx_n (at_T p T) m + electronic s b T).
Proof.
  intros Hs Hb T HT. unfold electronic. destruct (Rle_dec T 10) as [L|L]; [|destruct (Rlt_dec T 30) as [U|U]].
  - apply C37_low; cbn [pT at_T]; auto.
  - destruct (C37_between (at_T p T) m c) with (s := s T) (b := b T) as (e & E & Q & _); cbn [pT at_T] in *; try lra.
    + now apply Hs.
    + apply Hb. lra.
    + rewrite E, Q. reflexivity.
  - apply C37_high; cbn [pT at_T]; [lra|]. apply Hb. lra.
Qed.
Print Assumptions C37_model.

Lemma blend_cont : continuity blend.
Proof. unfold blend. reg. Qed.
Theorem C37_continuous (s b : R -> R) (T : R) :
  continuity_pt s T -> continuity_pt b T -> continuity_pt (electronic s b) T.
Proof.
  intros Cs Cb.
  assert (Cm : continuity_pt (fun T => (1 - blend T) * s T + blend T * b T) T).
  { apply continuity_pt_plus; apply continuity_pt_mult; try assumption.
    - apply continuity_pt_minus; [apply continuity_pt_const; intros ? ?; reflexivity|apply blend_cont].
    - apply blend_cont. }
  set (m := fun T => (1 - blend T) * s T + blend T * b T) in *.
  assert (M10 : m 10 = s 10) by (unfold m, blend; field).
  assert (M30 : m 30 = b 30) by (unfold m, blend; field).
  intros eps He. destruct (Cs eps He) as (ds & Ds & Hs). destruct (Cb eps He) as (db & Db & Hb).
  destruct (Cm eps He) as (dm & Dm & Hm). clear Cs Cb Cm.
  cbn [dist R_met] in *.
  set (d1 := if Req_EM_T T 10 then 1 else Rabs (T - 10)). set (d2 := if Req_EM_T T 30 then 1 else Rabs (T - 30)).
  assert (P1 : 0 < d1) by (unfold d1; destruct (Req_EM_T T 10); [lra|]; apply Rabs_pos_lt; lra).
  assert (P2 : 0 < d2) by (unfold d2; destruct (Req_EM_T T 30); [lra|]; apply Rabs_pos_lt; lra).
  exists (Rmin (Rmin ds db) (Rmin dm (Rmin d1 d2))). split.
  { repeat apply Rmin_glb_lt; assumption. }
  intros x [Hx1 Hx2].
  assert (Q : R_dist x T < ds /\ R_dist x T < db /\ R_dist x T < dm /\ R_dist x T < d1 /\ R_dist x T < d2).
  { pose proof (Rmin_l (Rmin ds db) (Rmin dm (Rmin d1 d2))). pose proof (Rmin_r (Rmin ds db) (Rmin dm (Rmin d1 d2))).
    pose proof (Rmin_l ds db). pose proof (Rmin_r ds db). pose proof (Rmin_l dm (Rmin d1 d2)).
    pose proof (Rmin_r dm (Rmin d1 d2)). pose proof (Rmin_l d1 d2). pose proof (Rmin_r d1 d2). repeat split; lra. }
  destruct Q as (Q1 & Q2 & Q3 & Q4 & Q5).
  specialize (Hs x (conj Hx1 Q1)). specialize (Hb x (conj Hx1 Q2)). specialize (Hm x (conj Hx1 Q3)).
  unfold electronic. fold (m x) (m T).
  unfold R_dist, d1, d2 in Q4, Q5. clear - Hs Hb Hm M10 M30 Q4 Q5.
  destruct (Rle_dec T 10) as [L|L]; [destruct (Rle_dec x 10) as [L'|L']|destruct (Rle_dec x 10) as [L'|L']].
  - exact Hs.
  - (* T <= 10 < x: only T = 10 is possible *)
    destruct (Req_EM_T T 10) as [->|NE].
    + destruct (Rlt_dec x 30) as [U|U].
      * rewrite M10 in Hm. exact Hm.
      * exfalso. destruct (Req_EM_T 10 30) as [E|E]; [lra|]. rewrite (Rabs_right (x - 10)) in * by lra.
        rewrite Rabs_left in Q5 by lra. lra.
    + exfalso. rewrite Rabs_right in Q4 by lra. rewrite Rabs_left in Q4 by lra. lra.
  - exfalso. destruct (Req_EM_T T 10) as [E|NE]; [lra|].
    rewrite Rabs_left in Q4 by lra. rewrite Rabs_right in Q4 by lra. lra.
  - destruct (Rlt_dec T 30) as [U|U]; [destruct (Rlt_dec x 30) as [U'|U']|destruct (Rlt_dec x 30) as [U'|U']].
    + exact Hm.
    + exfalso. destruct (Req_EM_T T 30) as [E|NE]; [lra|].
      rewrite Rabs_right in Q5 by lra. rewrite Rabs_left in Q5 by lra. lra.
    + destruct (Req_EM_T T 30) as [->|NE].
      * rewrite M30 in Hm. exact Hm.
      * exfalso. rewrite Rabs_left in Q5 by lra. rewrite Rabs_right in Q5 by lra. lra.
    + exact Hb.
Qed.
Print Assumptions C37_continuous.

(** the Lindhard tables reach far beyond the blend *)
Lemma table_end_high : 16000 < exp (LN10_ (F:=R) * 7).
Proof.
  pose proof LN10_bounds as [L _].
  assert (E2 : exp 1 * exp 1 < exp LN10_) by (rewrite <- exp_plus; apply exp_increasing; lra).
  assert (E1 : 2 < exp 1) by (pose proof (exp_ineq1 1); lra).
  assert (E4 : 4 < exp LN10_) by nra.
  replace (LN10_ * 7) with (LN10_ + (LN10_ + (LN10_ + (LN10_ + (LN10_ + (LN10_ + LN10_)))))) by ring.
  rewrite !exp_plus. change (exp (LN10_ (F:=R))) with (exp LN10_) in *. set (x := exp LN10_) in *.
  assert (16 < x * x) by nra. assert (64 < x * (x * x)) by nra. assert (256 < x * (x * (x * x))) by nra.
  assert (1024 < x * (x * (x * (x * x)))) by nra. assert (4096 < x * (x * (x * (x * (x * x))))) by nra.
  nra.
Qed.

(** carbon at 20 MeV/u in water: half of each model *)
Example C37_case : exists s b, sezi_dedx_e (carbon 20) (water 1) conf = Ok s /\ bethek_dedx_e (carbon 20) (water 1) conf = Ok b /\
  dedx (carbon 20) (water 1) conf = Ok (dedx_n (carbon 20) (water 1) + (s + b) / 2).
Proof.
  assert (Z : proj_Z_ok (carbon 20)) by (unfold proj_Z_ok, carbon; cbn; lra).
  assert (Tg : targets_ok (water 1)) by (unfold targets_ok, water; cbn; repeat constructor; cbn; lia).
  destruct (sezi_ok (carbon 20) (water 1) conf Z Tg) as [s Hs].
  destruct (bethek_ok (carbon 20) (water 1) conf Z Tg) as [b Hb].
  { unfold ls_safe. cbn [carbon pT]. intros [H _]. revert H. apply Rlt_not_le.
    unfold ls_glast. rewrite glast_val by (lia || lra). pose proof eps_small. pose proof table_end_high. lra. }
  exists s, b. split; [exact Hs|]. split; [exact Hb|].
  destruct (C37_between (carbon 20) (water 1) conf ltac:(cbn; lra) ltac:(cbn; lra) s b Hs Hb) as (e & E & Q & _).
  rewrite E, Q. f_equal. f_equal. unfold blend. cbn [carbon pT]. field.
Qed.

(** ** C38: no table is read outside its bounds for charges 1..108 *)

(** an energy below the last energy of the Lindhard tables by less than the tolerance of the lookup *)
Definition just_below_table_end (T : R) : Prop :=
  let last := exp (LN10_ * 7) in last - numeric_epsilon <= T < last.

Lemma safe_iff T : ls_safe T <-> ~ just_below_table_end T.
Proof. unfold ls_safe, just_below_table_end, ls_glast. rewrite glast_val by (lia || lra). reflexivity. Qed.

Theorem C38_in_bounds p m c : 1 <= pZ p < 109 -> (forall t, In t (m_atoms m) -> (1 <= tZ t)%Z) ->
  ~ just_below_table_end (pT p) ->
  (exists v, dedx (F:=R) p m c = Ok v) /\ (exists v, domega2dx p m c = Ok v).
Proof.
  intros Z Tg G. apply safe_iff in G. split.
  - apply dedx_ok; [exact Z| |exact G]. apply Forall_forall. exact Tg.
  - apply domega2dx_ok; assumption.
Qed.
Print Assumptions C38_in_bounds.

Theorem C38_tables p m c : 1 <= pZ p < 109 -> (forall t, In t (m_atoms m) -> (1 <= tZ t <= 46340)%Z) ->
  exists d, calculate_DataPoint (F:=R) p m c = Ok d /\
    length (dp_range d) = 600%nat /\ length (dp_rs d) = 600%nat /\ length (dp_av d) = 600%nat.
Proof.
  intros Z Tg.
  assert (K : key_ok p m).
  { split; [exact Z|]. split; apply Forall_forall; intros t Ht; specialize (Tg t Ht); lia. }
  destruct (range_table_ok p m c K) as (r & R1 & R2). destruct (angular_table_ok p m c K) as (a & A1 & A2).
  destruct (straggling_table_ok p m c K) as (s & S1 & S2).
  unfold calculate_DataPoint. rewrite R1, A1, S1. cbn [bind]. eexists. split; [reflexivity|].
  cbn [dp_range dp_rs dp_av]. split; [exact R2|]. split; [exact S2|exact A2].
Qed.
Print Assumptions C38_tables.

Lemma aget_high {A} (l : list A) i : (Z.of_nat (length l) <= i)%Z -> aget l i = UB OutOfBounds.
Proof.
  intros H. unfold aget. destruct (Z.ltb_spec i 0); [reflexivity|].
  rewrite (proj2 (nth_error_None l (Z.to_nat i))); [reflexivity|lia].
Qed.
Lemma aget_low {A} (l : list A) i : (i < 0)%Z -> aget l i = UB OutOfBounds.
Proof. intros H. unfold aget. destruct (Z.ltb_spec i 0); [reflexivity|lia]. Qed.

Lemma to_int_of z : (-2147483648 <= z <= 2147483647)%Z -> fto_int (Num := NumR) (IZR z) = Some z.
Proof. apply Rto_int_IZR. Qed.

Lemma lindhard_high p z : pZ p = IZR z -> (109 <= z <= 2147483647)%Z -> precalculated_lindhard (F:=R) p = UB OutOfBounds.
Proof.
  intros E B. unfold precalculated_lindhard. rewrite E, to_int_of by lia. cbn [cast bind]. rewrite ls_e0. cbn [bind].
  unfold ls_lookup. rewrite aget_high; [reflexivity|]. destruct ls_a_sizes as [-> _].
  unfold LS_MAX_Z. rewrite Z.gtb_ltb. destruct (Z.ltb_spec 110 z); lia.
Qed.
Lemma lindhard_low p z : pZ p = IZR z -> (-2147483648 <= z <= 0)%Z -> precalculated_lindhard (F:=R) p = UB OutOfBounds.
Proof.
  intros E B. unfold precalculated_lindhard. rewrite E, to_int_of by lia. cbn [cast bind]. rewrite ls_e0. cbn [bind].
  unfold ls_lookup. rewrite aget_low; [reflexivity|].
  unfold LS_MAX_Z. rewrite Z.gtb_ltb. destruct (Z.ltb_spec 110 z); lia.
Qed.
Lemma lindhard_X_bad p z : pZ p = IZR z -> (-2147483648 <= z <= 2147483647)%Z -> (z <= 0 \/ 109 <= z)%Z ->
  1 <= pT p -> precalculated_lindhard_X (F:=R) p = UB OutOfBounds.
Proof.
  intros E B O T. unfold precalculated_lindhard_X. rewrite E, to_int_of by lia. cbn [cast bind]. rewrite ls_e0. cbn [bind].
  numR. destruct (Rltb_spec (pT p) 1); [lra|]. unfold ls_lookup.
  unfold LS_MAX_Z. rewrite Z.gtb_ltb. destruct O as [O|O].
  - rewrite aget_low; [reflexivity|]. destruct (Z.ltb_spec 110 z); lia.
  - rewrite aget_high; [reflexivity|]. destruct ls_Xa_sizes as [-> _]. destruct (Z.ltb_spec 110 z); lia.
Qed.

Lemma bethek_UB p m c t ts : m_atoms m = t :: ts -> (1 <= tZ t)%Z -> pT p <> 0 -> corr_has c no_lindhard = false ->
  precalculated_lindhard (F:=R) p = UB OutOfBounds -> bethek_dedx_e p m c = UB OutOfBounds.
Proof.
  intros E Tz T C L. unfold bethek_dedx_e. rewrite E. cbn [ofold]. unfold bethek_dedx_e_t. numR.
  destruct (Reqb_spec (pT p) (Rlit 0)) as [Q|_]; [exfalso; apply T; rewrite Q; dec_norm; lra|]. cbv zeta.
  match goal with |- context [bethek_density_effect ?b ?z] => destruct (density_effect_ok b z Tz) as [d ->] end.
  cbn [bind]. rewrite C. cbn [negb]. rewrite L. reflexivity.
Qed.

(** charges from 109 on: rows behind the Lindhard tables (108 rows; the clamp is at 110) are read *)
Theorem C38_charge_109_refuted p m c z : pZ p = IZR z -> (109 <= z <= 46340)%Z -> m_atoms m <> [] ->
  (forall t, In t (m_atoms m) -> (1 <= tZ t)%Z) ->
  (10 < pT p -> corr_has c no_lindhard = false -> dedx (F:=R) p m c = UB OutOfBounds) /\
  (1 <= pT p -> domega2dx p m c = UB OutOfBounds).
Proof.
  intros E B NE Tg. destruct (m_atoms m) as [|t ts] eqn:M; [contradiction|]. split.
  - intros T C.
    assert (U : bethek_dedx_e p m c = UB OutOfBounds).
    { apply (bethek_UB p m c t ts M); [apply Tg; now left|lra|exact C|]. apply (lindhard_high p z E). lia. }
    unfold dedx. rewrite U. numR.
    destruct (Rleb_spec (pT p) (Rlit 0)) as [L|_]; [revert L; dec_norm; lra|].
    destruct (Rleb_spec (pT p) (Rlit 10)) as [L|_]; [rewrite lit10 in L; lra|].
    destruct (_ && _)%bool; [|reflexivity].
    assert (S : defined (sezi_dedx_e p m c)).
    { unfold sezi_dedx_e. cbv zeta. dbind; [|apply defined_Ok]. apply defined_ofold. rewrite M. intros b x Hx.
      rewrite E, to_int_of by lia. cbn [cast bind]. dbind; [apply srim_dedx_e_ok; [lia|now apply Tg]|]. apply defined_Ok. }
    destruct S as [s ->]. reflexivity.
  - intros T. unfold domega2dx. rewrite M. cbn [ofold]. unfold dedx_variance. cbv zeta.
    rewrite (lindhard_X_bad p z E ltac:(lia) ltac:(right; lia) T). reflexivity.
Qed.
Print Assumptions C38_charge_109_refuted.

(** charges below 1: rows before the tables *)
Theorem C38_charge_0_refuted p m c z : pZ p = IZR z -> (-2147483648 <= z <= 0)%Z -> m_atoms m <> [] ->
  (forall t, In t (m_atoms m) -> (1 <= tZ t)%Z) ->
  (0 < pT p < 30 -> dedx (F:=R) p m c = UB OutOfBounds) /\
  (1 <= pT p -> domega2dx p m c = UB OutOfBounds).
Proof.
  intros E B NE Tg. destruct (m_atoms m) as [|t ts] eqn:M; [contradiction|]. split.
  - intros T.
    assert (S : sezi_dedx_e p m c = UB OutOfBounds).
    { unfold sezi_dedx_e. rewrite M. cbn [ofold]. rewrite E, to_int_of by lia. cbn [cast bind].
      unfold srim_dedx_e. cbv zeta. destruct (Z.eqb_spec z 1); [lia|]. destruct (Z.eqb_spec z 2); [lia|].
      unfold srim_hi. cbv zeta. specialize (Tg t (or_introl eq_refl)). pose proof (srim_row_bounds (tZ t) Tg).
      destruct (tab1_ok atima_vfermi (srim_row (tZ t))) as [v ->]; [rewrite vfermi_size; lia|]. cbn [bind].
      unfold tab1. rewrite aget_low; [reflexivity|]. unfold srim_row. rewrite Z.gtb_ltb. destruct (Z.ltb_spec 92 z); lia. }
    unfold dedx. rewrite S. numR.
    destruct (Rleb_spec (pT p) (Rlit 0)) as [L|_]; [revert L; dec_norm; lra|].
    destruct (Rleb_spec (pT p) (Rlit 10)) as [L|L]; [reflexivity|].
    destruct (Rltb_spec (Rlit 10) (pT p)) as [_|N]; [|exfalso; apply N; rewrite lit10 in *; lra].
    destruct (Rltb_spec (pT p) (Rlit 30)) as [_|N]; [reflexivity|exfalso; apply N; rewrite lit30; lra].
  - intros T. unfold domega2dx. rewrite M. cbn [ofold]. unfold dedx_variance. cbv zeta.
    rewrite (lindhard_X_bad p z E ltac:(lia) ltac:(left; lia) T). reflexivity.
Qed.
Print Assumptions C38_charge_0_refuted.

(** a constituent with charge below 1 *)
Theorem C38_target_0_refuted p m c t ts : 1 <= pZ p < 109 -> m_atoms m = t :: ts -> (tZ t <= 0)%Z ->
  0 < pT p -> dedx (F:=R) p m c = UB OutOfBounds.
Proof.
  intros Z M Tz T. destruct (proj_Z_int p Z) as [E B].
  assert (TB : forall tb j, tab2 (F:=R) tb (srim_row (tZ t)) j = UB OutOfBounds).
  { intros tb j. unfold tab2. rewrite aget_low; [reflexivity|]. unfold srim_row. rewrite Z.gtb_ltb. destruct (Z.ltb_spec 92 (tZ t)); lia. }
  assert (S : sezi_dedx_e p m c = UB OutOfBounds).
  { unfold sezi_dedx_e. rewrite M. cbn [ofold]. rewrite E. cbn [cast bind].
    unfold srim_dedx_e. cbv zeta. set (f := if (c_low c =? srim_95)%Z then p_se else p_se85).
    assert (PF : forall e, f (tZ t) e = UB OutOfBounds).
    { intros e. unfold f. destruct (c_low c =? srim_95)%Z; unfold p_se, p_se85, p_se_with; cbv zeta; rewrite TB; reflexivity. }
    destruct (Z.eqb_spec (Rfloor_Z (pZ p)) 1); [rewrite PF; reflexivity|].
    destruct (Z.eqb_spec (Rfloor_Z (pZ p)) 2); [unfold srim_he; cbv zeta; rewrite PF; reflexivity|].
    unfold srim_hi. cbv zeta. unfold tab1 at 1. rewrite aget_low; [reflexivity|].
    unfold srim_row. rewrite Z.gtb_ltb. destruct (Z.ltb_spec 92 (tZ t)); lia. }
  assert (U : bethek_dedx_e p m c = UB OutOfBounds).
  { unfold bethek_dedx_e. rewrite M. cbn [ofold]. unfold bethek_dedx_e_t. numR.
    destruct (Reqb_spec (pT p) (Rlit 0)) as [Q|_]; [exfalso; revert Q; dec_norm; lra|]. cbv zeta.
    unfold bethek_density_effect. cbv zeta. unfold tab1 at 1. rewrite aget_low; [reflexivity|].
    rewrite Z.gtb_ltb. destruct (Z.ltb_spec 97 (tZ t)); lia. }
  unfold dedx. rewrite S, U. numR.
  destruct (Rleb_spec (pT p) (Rlit 0)) as [L|_]; [revert L; dec_norm; lra|].
  destruct (Rleb_spec (pT p) (Rlit 10)) as [L|L]; [reflexivity|]. destruct (_ && _)%bool; reflexivity.
Qed.
Print Assumptions C38_target_0_refuted.

(** just below the end of the Lindhard table the element behind its last one is read *)
Theorem C38_table_end_refuted p m c : 1 <= pZ p < 109 -> m_atoms m <> [] ->
  (forall t, In t (m_atoms m) -> (1 <= tZ t)%Z) -> just_below_table_end (pT p) ->
  (corr_has c no_lindhard = false -> dedx (F:=R) p m c = UB OutOfBounds) /\ domega2dx p m c = UB OutOfBounds.
Proof.
  intros Z NE Tg J. destruct (m_atoms m) as [|t ts] eqn:M; [contradiction|].
  destruct (proj_Z_int p Z) as [E B]. unfold just_below_table_end in J. cbv zeta in J.
  assert (GL : ls_glast = exp (LN10_ * 7)) by (unfold ls_glast; rewrite glast_val by (lia || lra); reflexivity).
  rewrite <- GL in J. pose proof ls_glast_big as GB.
  assert (Big : 30 <= pT p).
  { pose proof eps_small. pose proof table_end_high. lra. }
  assert (LK : forall tb z, (0 <= z < Z.of_nat (length tb))%Z -> ls_lookup (F:=R) tb z (pT p) = UB OutOfBounds).
  { intros tb z Hz. unfold ls_lookup. destruct (defined_aget tb z Hz) as [row ->]. cbn [bind]. rewrite ls_table_eq.
    apply interp_gap; try lia; try exact J; try lra. unfold gfirst, gval.
    replace (LN10_ * (0 + 0 * gstep 200 0 7)) with 0 by ring. rewrite exp_0. lra. }
  destruct ls_a_sizes as [A1 _], ls_Xa_sizes as [A3 _]. split.
  - intros C.
    assert (U : bethek_dedx_e p m c = UB OutOfBounds).
    { apply (bethek_UB p m c t ts M); [apply Tg; now left|lra|exact C|].
      unfold precalculated_lindhard. rewrite E. cbn [cast bind]. rewrite ls_e0. cbn [bind]. numR.
      destruct (Rltb_spec (pT p) 1); [lra|]. rewrite LK; [reflexivity|]. rewrite A1.
      unfold LS_MAX_Z. rewrite Z.gtb_ltb. destruct (Z.ltb_spec 110 (Rfloor_Z (pZ p))); lia. }
    unfold dedx. rewrite U. numR.
    destruct (Rleb_spec (pT p) (Rlit 0)) as [L|_]; [revert L; dec_norm; lra|].
    destruct (Rleb_spec (pT p) (Rlit 10)) as [L|_]; [rewrite lit10 in L; lra|].
    destruct (Rltb_spec (pT p) (Rlit 30)) as [L|_]; [rewrite lit30 in L; lra|]. rewrite andb_false_r. reflexivity.
  - unfold domega2dx. rewrite M. cbn [ofold]. unfold dedx_variance. cbv zeta.
    unfold precalculated_lindhard_X. rewrite E. cbn [cast bind]. rewrite ls_e0. cbn [bind]. numR.
    destruct (Rltb_spec (pT p) 1); [lra|]. rewrite LK; [reflexivity|]. rewrite A3.
    unfold LS_MAX_Z. rewrite Z.gtb_ltb. destruct (Z.ltb_spec 110 (Rfloor_Z (pZ p))); lia.
Qed.
Print Assumptions C38_table_end_refuted.

(** meitnerium (109) at 300 MeV/u in water with the default configuration *)
Example C38_case : dedx (mkProj 276 109 109 300) (water 1) conf = UB OutOfBounds /\
  domega2dx (mkProj 276 109 109 300) (water 1) conf = UB OutOfBounds.
Proof.
  destruct (C38_charge_109_refuted (mkProj 276 109 109 300) (water 1) conf 109 eq_refl ltac:(lia)) as [H1 H2].
  - discriminate.
  - intros t [<-|[<-|[]]]; cbn; lia.
  - split; [apply H1; [cbn; lra|reflexivity]|apply H2; cbn; lra].
Qed.
