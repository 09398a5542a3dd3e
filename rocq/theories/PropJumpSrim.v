(** * C60: the low-energy stopping power of heavier ions jumps at the velocity cut

    Below the cut the code scales the proton stopping power from the energy [Emin] at which the relative velocity
    would reach the cut if the ion were faster than the electrons. In targets with fast electrons, such as gold,
    the cut is reached by slower ions and the two branches do not meet. *)
From Coq Require Import ZArith Reals List Bool Lra Lia.
From Verif Require Import Num NumR Structures DataElements DataSrim EnergyTable Srim Calculations Storage SpecData DataProofs BoundsProofs
  PropSrim PropReact LnBounds PropFormula PropFormulaSrim PropJump.
Import ListNotations.
Local Open Scope R_scope.

(** ** Continuity *)
Lemma cont_loc f g a d : 0 < d -> (forall x, Rabs (x - a) < d -> f x = g x) -> continuity_pt g a -> continuity_pt f a.
Proof. intros D H C. apply (PropSrim.glue f g g a d D); try assumption; [intros x X _; apply H; exact X|intros x X _; apply H; exact X|reflexivity]. Qed.
Lemma cont_max f g a : continuity_pt f a -> continuity_pt g a -> continuity_pt (fun x => Rmax (f x) (g x)) a.
Proof.
  intros F G. apply (cont_loc _ (fun x => (f x + g x + Rabs (f x - g x)) * / 2) a 1 ltac:(lra)).
  - intros x _. unfold Rmax. destruct (Rle_dec (f x) (g x)); [rewrite Rabs_left1 by lra|rewrite Rabs_right by lra]; lra.
  - apply continuity_pt_mult; [|apply cont_const]. apply continuity_pt_plus; [apply continuity_pt_plus; assumption|].
    apply (continuity_pt_comp (fun x => f x - g x) Rabs); [apply continuity_pt_minus; assumption|apply Rcontinuity_abs].
Qed.
Lemma cont_min f g a : continuity_pt f a -> continuity_pt g a -> continuity_pt (fun x => Rmin (f x) (g x)) a.
Proof.
  intros F G. apply (cont_loc _ (fun x => - Rmax (- f x) (- g x)) a 1 ltac:(lra)).
  - intros x _. unfold Rmin, Rmax. destruct (Rle_dec (f x) (g x)), (Rle_dec (- f x) (- g x)); lra.
  - apply continuity_pt_opp. apply cont_max; apply continuity_pt_opp; assumption.
Qed.
Lemma cont_exp f a : continuity_pt f a -> continuity_pt (fun x => exp (f x)) a.
Proof. intros F. apply (continuity_pt_comp f exp); [exact F|]. apply derivable_continuous_pt, derivable_pt_exp. Qed.
Lemma cont_lnf f a : 0 < f a -> continuity_pt f a -> continuity_pt (fun x => ln (f x)) a.
Proof. intros P F. apply (continuity_pt_comp f ln); [exact F|now apply cont_ln]. Qed.
Lemma cont_powf f y a : 0 < f a -> continuity_pt f a -> continuity_pt (fun x => Rpower (f x) y) a.
Proof. intros P F. unfold Rpower. apply cont_exp. apply continuity_pt_mult; [apply cont_const|]. now apply cont_lnf. Qed.
Lemma cont_ipow f n a : continuity_pt f a -> continuity_pt (fun x => f x ^ n) a.
Proof. intros F. induction n as [|n IH]; cbn [pow]; [apply cont_const|]. apply continuity_pt_mult; assumption. Qed.
Lemma cont_id a : continuity_pt (fun x => x) a.
Proof. apply derivable_continuous_pt, derivable_pt_id. Qed.
Lemma cont_sqrtf f a : 0 < f a -> continuity_pt f a -> continuity_pt (fun x => sqrt (f x)) a.
Proof. intros P F. apply (continuity_pt_comp f sqrt); [exact F|]. apply continuity_pt_sqrt. lra. Qed.
Lemma cont_near f a lo hi : continuity_pt f a -> lo < f a < hi -> exists d, 0 < d /\ forall x, Rabs (x - a) < d -> lo < f x < hi.
Proof.
  intros C B. destruct (C (Rmin (f a - lo) (hi - f a))) as (d & D & H); [apply Rmin_glb_lt; lra|]. exists d. split; [exact D|]. intros x X.
  destruct (Req_dec x a) as [->|N]; [exact B|]. specialize (H x). cbn [dist R_met] in H. unfold R_dist in H.
  assert (G : D_x no_cond a x /\ Rabs (x - a) < d) by (split; [split; [exact Coq.Init.Logic.I|intros E; apply N; symmetry; exact E]|exact X]).
  specialize (H G). pose proof (Rmin_l (f a - lo) (hi - f a)). pose proof (Rmin_r (f a - lo) (hi - f a)). apply Rabs_def2 in H. lra.
Qed.
Ltac cont := lazymatch goal with
  | H : continuity_pt ?f ?a |- continuity_pt ?f ?a => exact H
  | |- continuity_pt (fun x => x) _ => apply cont_id
  | |- continuity_pt (fun _ => ?c) _ => apply cont_const
  | |- continuity_pt (fun x => _ + _) _ => apply continuity_pt_plus; cont
  | |- continuity_pt (fun x => _ - _) _ => apply continuity_pt_minus; cont
  | |- continuity_pt (fun x => _ * _) _ => apply continuity_pt_mult; cont
  | |- continuity_pt (fun x => - _) _ => apply continuity_pt_opp; cont
  | |- continuity_pt (fun x => Rmax _ _) _ => apply cont_max; cont
  | |- continuity_pt (fun x => Rmin _ _) _ => apply cont_min; cont
  | |- continuity_pt (fun x => exp _) _ => apply cont_exp; cont
  | |- continuity_pt (fun x => _ ^ _) _ => apply cont_ipow; cont
  | |- continuity_pt (fun x => Rpower _ _) _ => apply cont_powf; cont
  | _ => idtac end.

(** ** The pieces of the effective charge *)
Lemma cont_ionization f a : 0 < f a -> continuity_pt f a -> continuity_pt (fun x => zbl_ionization (f x)) a.
Proof. intros P F. unfold zbl_ionization. cont; assumption. Qed.
Lemma cont_length3 f sc a : continuity_pt f a -> 0.2 < f a < 0.825 -> continuity_pt (fun x => zbl_length 3 (f x) sc) a.
Proof.
  intros F B. destruct (cont_near f a _ _ F B) as (d & D & H). unfold zbl_length. cbv zeta. unfold Rdiv at 2. 
  set (b := Rmin 0.43 _). set (mid := Rmax 0 (0.9 - 0.025 * 3)). assert (M : mid = 0.825) by (unfold mid; rewrite Rmax_right; decs; lra).
  apply (cont_loc _ (fun x => Rmax (b * (f x - 0.2) * / Rabs (mid - 0.2000001)) ((0.8 - f x * Rmin 1.2 (0.6 + 3 / 30)) * sc) * / Rpower 3 (1 / 3)) a d D).
  - intros x X. specialize (H x X). rewrite M. destruct (Rlt_dec (f x) 0.2); [lra|]. destruct (Rlt_dec (f x) 0.825); [reflexivity|lra].
  - cont.
Qed.

(** ** Lithium ions in gold *)
Definition gold_vF : R := 1.2879.
Lemma gold_entry : table_entry atima_vfermi 79 = gold_vF.
Proof. reflexivity. Qed.
(** at the square [w] of the ratio of the ion's velocity to the electrons' the relative velocity is 1 *)
Definition gold_w : R := 5 - sqrt (25 - 15 * (4 / (3 * gold_vF) - 1)).
Definition gold_E : R := 25 * gold_vF ^ 2 * gold_w.
Definition rel (w : R) : R := 3 / 4 * gold_vF * (1 + 2 / 3 * w - w ^ 2 / 15).
Lemma gold_w_bounds : 0.053 < gold_w < 0.0533.
Proof.
  unfold gold_w. set (d := 25 - _). assert (D : (5 - 0.0533) ^ 2 < d < (5 - 0.053) ^ 2) by (unfold d, gold_vF; decs; lra). clearbody d.
  assert (S : sqrt d ^ 2 = d) by (cbn [pow]; rewrite Rmult_1_r; apply sqrt_sqrt; nra). pose proof (sqrt_pos d). revert D. decs. intros D. split; nra.
Qed.
Lemma gold_root : rel gold_w = 1.
Proof.
  unfold rel, gold_w. set (d := 25 - _). assert (D : 0 <= d) by (unfold d, gold_vF; decs; lra). assert (S : sqrt d ^ 2 = d) by (cbn [pow]; rewrite Rmult_1_r; apply sqrt_sqrt; exact D).
  set (s := sqrt d) in *. clearbody s. replace ((5 - s) ^ 2) with (25 - 10 * s + s ^ 2) by ring. rewrite S. unfold d. assert (0 < gold_vF) by (unfold gold_vF; decs; lra). field. lra.
Qed.
Lemma gold_relative E : 0 < E <= 25 -> zbl_relative gold_vF (sqrt (E / 25)) = rel (E / (25 * gold_vF ^ 2)).
Proof.
  intros H. assert (V : 1 < gold_vF) by (unfold gold_vF; decs; lra). unfold zbl_relative. destruct (Rle_dec _ _) as [L|_].
  - exfalso. assert (sqrt (E / 25) <= sqrt 1) by (apply sqrt_le_1; lra). rewrite sqrt_1 in H0. lra.
  - unfold rel. assert (S : (sqrt (E / 25) / gold_vF) ^ 2 = E / (25 * gold_vF ^ 2)).
    { unfold Rdiv at 1. rewrite Rpow_mult_distr. replace (sqrt (E / 25) ^ 2) with (E / 25) by (cbn [pow]; rewrite Rmult_1_r; symmetry; apply sqrt_sqrt; lra). field. lra. }
    replace ((sqrt (E / 25) / gold_vF) ^ 4) with (((sqrt (E / 25) / gold_vF) ^ 2) ^ 2) by ring. rewrite S. field. lra.
Qed.
Lemma gold_E_bounds : 2 < gold_E < 2.2105.
Proof. pose proof gold_w_bounds as B. unfold gold_E. set (w := gold_w) in *. clearbody w. revert B. unfold gold_vF. decs. lra. Qed.
Lemma gold_order E : 0 < E <= 25 -> (E <= gold_E -> zbl_relative gold_vF (sqrt (E / 25)) <= 1) /\ (gold_E < E -> 1 < zbl_relative gold_vF (sqrt (E / 25))).
Proof.
  intros H. rewrite (gold_relative E H). assert (V : 1.28 < gold_vF) by (unfold gold_vF; decs; lra). set (w := E / (25 * gold_vF ^ 2)).
  assert (W : E = 25 * gold_vF ^ 2 * w) by (unfold w; field; revert V; decs; lra). assert (VV : 0 < 25 * gold_vF ^ 2) by (revert V; decs; nra).
  assert (WB : 0 < w <= 1) by (clearbody w; subst E; revert V; decs; split; nra). clearbody w. pose proof gold_root as G. pose proof gold_w_bounds as B.
  assert (B' : 0 < gold_w < 1) by (revert B; decs; lra). clear B.
  assert (D : rel w - rel gold_w = (w - gold_w) * (3 / 4 * gold_vF * (2 / 3 - (w + gold_w) / 15))) by (unfold rel; field).
  assert (P : 0 < 3 / 4 * gold_vF * (2 / 3 - (w + gold_w) / 15)) by (apply Rmult_lt_0_compat; [revert V; decs; lra|lra]).
  set (k := 3 / 4 * _ * _) in *. clearbody k. unfold gold_E. rewrite W. split; intros L.
  - assert (w <= gold_w) by (apply Rmult_le_reg_l with (25 * gold_vF ^ 2); assumption). nra.
  - assert (gold_w < w) by (apply Rmult_lt_reg_l with (25 * gold_vF ^ 2); assumption). nra.
Qed.

(** the cube root of 3 and the first term of the ionization formula *)
Definition cut3 : R := 1 / Rpower 3 (1 / 3) ^ 2.
Lemma c_cubed : Rpower 3 (1 / 3) ^ 3 = 3.
Proof. rewrite <- Rpower_pow by apply exp_pos. rewrite Rpower_mult. replace (1 / 3 * INR 3) with 1 by (cbn [INR]; lra). apply Rpower_1. lra. Qed.
Lemma cut3_cubed : cut3 ^ 3 = 1 / 9.
Proof.
  unfold cut3. pose proof c_cubed as C. assert (P : 0 < Rpower 3 (1 / 3)) by apply exp_pos. set (c := Rpower 3 (1 / 3)) in *. clearbody c.
  replace ((1 / c ^ 2) ^ 3) with (1 / (c ^ 3) ^ 2) by (field; lra). rewrite C. lra.
Qed.
Lemma cut3_bounds : 0.48 < cut3 < 0.481.
Proof.
  pose proof cut3_cubed as C. assert (P : 0 < cut3) by (unfold cut3; apply pos_quot; [lra|apply pow_lt, exp_pos]). set (y := cut3) in *. clearbody y. decs.
  split; (apply Rnot_le_lt; intros H).
  - assert (y ^ 3 <= (48 * / 100) ^ 3) by (apply pow_incr; lra). lra.
  - assert ((481 * / 1000) ^ 3 <= y ^ 3) by (apply pow_incr; lra). lra.
Qed.
Lemma cut3_root : 0.8 < Rpower cut3 0.3 < 0.81 /\ Rpower cut3 0.6 = Rpower cut3 0.3 ^ 2.
Proof.
  assert (P : 0 < cut3) by (unfold cut3; apply pos_quot; [lra|apply pow_lt, exp_pos]). split.
  - assert (U : Rpower cut3 0.3 ^ 10 = 1 / 9).
    { rewrite <- Rpower_pow by apply exp_pos. rewrite Rpower_mult. replace (0.3 * INR 10) with (INR 3) by (cbn [INR]; decs; lra). rewrite Rpower_pow by exact P. apply cut3_cubed. }
    assert (UP : 0 < Rpower cut3 0.3) by apply exp_pos. set (u := Rpower cut3 0.3) in *. clearbody u. decs. split; (apply Rnot_le_lt; intros H).
    + assert (u ^ 10 <= (8 * / 10) ^ 10) by (apply pow_incr; lra). lra.
    + assert ((81 * / 100) ^ 10 <= u ^ 10) by (apply pow_incr; lra). lra.
  - rewrite <- (Rpower_pow 2) by apply exp_pos. rewrite Rpower_mult. f_equal. cbn [INR]. decs. lra.
Qed.
Lemma cut3_ionization : 0.2 < zbl_ionization cut3 < 0.825.
Proof.
  unfold zbl_ionization. destruct cut3_root as [U ->]. pose proof cut3_bounds as Y. set (u := Rpower cut3 0.3) in *. set (y := cut3) in *. clearbody u y.
  set (p := -0.803 * u + _ + _ + _). assert (PB : 1 / 4 < p < 8 / 10) by (unfold p; revert U Y; decs; intros U Y; split; nra). clearbody p.
  rewrite Rmin_right by lra. assert (L : 1 - p < exp (- p)) by (pose proof (exp_ineq1 (- p)); lra).
  assert (H : exp (- p) < 8 / 10).
  { rewrite exp_Ropp. pose proof (exp_ineq1 p ltac:(lra)). replace (8 / 10) with (/ (125 / 100)) by field. apply Rinv_lt_contravar; [apply Rmult_lt_0_compat; [lra|apply exp_pos]|lra]. }
  rewrite Rmax_right by lra. revert L H. decs. lra.
Qed.

(** ** The effective charge is continuous at the cut *)
Definition li_charge (sc : R) (y E : R) : R := 3 * zbl_fraction 3 79 gold_vF (zbl_ionization y) (zbl_length 3 (zbl_ionization y) sc) E.
Definition gold_y (E : R) : R := zbl_relative gold_vF (sqrt (E / 25)) / Rpower 3 (1 / 3) ^ 2.
Lemma gold_y0 : gold_y gold_E = cut3.
Proof.
  pose proof gold_E_bounds as B. unfold gold_y, cut3. f_equal. rewrite gold_relative by (revert B; decs; lra).
  replace (gold_E / (25 * gold_vF ^ 2)) with gold_w; [apply gold_root|]. unfold gold_E. field. unfold gold_vF. decs. lra.
Qed.
Lemma cont_y : continuity_pt gold_y gold_E.
Proof.
  pose proof gold_E_bounds as B. apply (cont_loc _ (fun E => 3 / 4 * gold_vF * (1 + 2 / 3 * (E * / (25 * gold_vF ^ 2)) - (E * / (25 * gold_vF ^ 2)) ^ 2 * / 15) * / Rpower 3 (1 / 3) ^ 2) gold_E 1 ltac:(lra)).
  - intros E H. apply Rabs_def2 in H. unfold gold_y. rewrite gold_relative by (revert B; decs; lra). reflexivity.
  - cont.
Qed.
Lemma cont_charge sc : continuity_pt (fun E => li_charge sc (gold_y E) E) gold_E.
Proof.
  pose proof gold_E_bounds as B. pose proof cont_y as Y. assert (Q : continuity_pt (fun E => zbl_ionization (gold_y E)) gold_E).
  { apply cont_ionization; [|exact Y]. rewrite gold_y0. pose proof cut3_bounds as C. revert C. decs. lra. }
  assert (Q0 : 0.2 < zbl_ionization (gold_y gold_E) < 0.825) by (rewrite gold_y0; apply cut3_ionization).
  pose proof (cont_length3 (fun E => zbl_ionization (gold_y E)) sc gold_E Q Q0) as L. cbv beta in L.
  assert (LE : continuity_pt ln gold_E) by (apply cont_ln; revert B; decs; lra).
  unfold li_charge, zbl_fraction. unfold Rdiv. cont.
  apply cont_lnf; [|cont]. set (z := zbl_length _ _ _). nra.
Qed.

(** ** The jump: just above the energy where the relative velocity reaches the cut the stopping power is more than 5 percent larger than
    at this energy, whichever proton fit is selected *)
Lemma ln_ratio : 1.036 < ln 2.82.
Proof.
  destruct (ln_int 282 100) as [[l h]|] eqn:E; [|vm_compute in E; discriminate]. pose proof (ln_from 282 100 l h E) as B. replace 2.82 with (282 / 100) by (decs; lra).
  vm_compute in E. injection E as <- <-. unfold SC in B. change (2 ^ 50)%Z with 1125899906842624%Z in B. decs. lra.
Qed.
Lemma power_gap E : gold_E <= E -> 1.0518 * (Rpower (25 * (1 / 2) ^ 2 / 25) 0.45 * sqrt (gold_E / (25 * (1 / 2) ^ 2))) < Rpower (E / 25) 0.45.
Proof.
  intros H. pose proof gold_E_bounds as B. assert (B' : 0 < gold_E) by (revert B; decs; lra). apply Rlt_le_trans with (Rpower (gold_E / 25) 0.45).
  - rewrite <- Rpower_sqrt by (apply pos_quot; lra). set (x := gold_E / (25 * (1 / 2) ^ 2)). assert (XP : 0 < x) by (apply pos_quot; lra).
    replace (gold_E / 25) with (25 * (1 / 2) ^ 2 / 25 * x) by (unfold x; field). rewrite <- Rpower_mult_distr by lra.
    assert (P : 0 < Rpower (25 * (1 / 2) ^ 2 / 25) 0.45) by apply exp_pos. set (k := Rpower _ 0.45) in *. clearbody k.
    assert (L : 1.0518 * Rpower x (/ 2) < Rpower x 0.45); [|replace (1.0518 * (k * Rpower x (/ 2))) with (k * (1.0518 * Rpower x (/ 2))) by ring; apply Rmult_lt_compat_l; assumption].
    replace (Rpower x 0.45) with (Rpower x (- 0.05) * Rpower x (/ 2)) by (rewrite <- Rpower_plus; f_equal; decs; lra). apply Rmult_lt_compat_r; [apply exp_pos|].
    assert (LX : ln x < - ln 2.82).
    { rewrite <- ln_Rinv by (decs; lra). apply ln_increasing; [exact XP|]. unfold x. revert B. decs. lra. }
    unfold Rpower. set (t := - 0.05 * ln x). assert (T : 0.0518 < t) by (unfold t; pose proof ln_ratio as R0; revert LX R0; set (l := ln x); set (m := ln 2.82); clearbody l m; decs; lra).
    assert (0 < t) by (revert T; decs; lra). pose proof (exp_ineq1 t ltac:(lra)). revert T. decs. lra.
  - apply Rle_Rpower_l; [decs; lra|]. lra.
Qed.
Theorem C60_heavy_ion new : exists e0 S0, 0 < e0 /\ srim_dedx_e (F:=R) 3 79 e0 new = Ok S0 /\ 0 < S0 /\
  forall d, 0 < d -> exists e S, e0 < e < e0 + d /\ srim_dedx_e (F:=R) 3 79 e new = Ok S /\ 1.05 * S0 < S.
Proof.
  pose proof gold_E_bounds as B. assert (EB : 2 < gold_E < 3) by (revert B; decs; lra). clear B.
  assert (CP : 0 < Rpower 3 (1 / 3)) by apply exp_pos. assert (C2 : 0 < Rpower 3 (1 / 3) ^ 2) by (apply pow_lt; exact CP).
  assert (CUT : zbl_cut 3 = cut3) by (unfold zbl_cut; fold cut3; apply Rmax_right; pose proof cut3_bounds as C; revert C; decs; lra).
  set (sc := table_entry atima_lambda_screening 3). set (pr := proton_stopping (fit_table new) 79). set (az := andersen_ziegler (fit_row (fit_table new) 79) 25).
  assert (PR : forall E, E <= 25 -> pr E = az * Rpower (E / 25) 0.45).
  { intros E H. unfold pr, proton_stopping. destruct (Rle_dec E 25); [|lra]. reflexivity. }
  assert (HV : forall E, 0 < E -> exists S, srim_dedx_e (F:=R) 3 79 (E / 1000) new = Ok S /\ heavy_stopping pr 3 79 gold_vF sc E S).
  { intros E P. destruct (C59_heavy_ion 3 79 (E / 1000) new ltac:(lia) ltac:(lia) ltac:(lra)) as (S & H1 & H2). exists S. split; [exact H1|].
    replace (1000 * (E / 1000)) with E in H2 by field. rewrite gold_entry in H2. exact H2. }
  destruct (HV gold_E ltac:(lra)) as (S0 & V0 & H0). pose proof (C42_any_ion 3 79 (gold_E / 1000) new ltac:(lia) ltac:(lia) ltac:(lra)) as PS.
  assert (SP : 0 < S0) by (destruct PS as (x & X1 & X2); rewrite V0 in X1; injection X1 as ->; exact X2).
  exists (gold_E / 1000), S0. split; [lra|]. split; [exact V0|]. split; [exact SP|]. intros d D.
  assert (F0 : S0 = az * (Rpower (25 * (1 / 2) ^ 2 / 25) 0.45 * sqrt (gold_E / (25 * (1 / 2) ^ 2))) * li_charge sc (gold_y gold_E) gold_E ^ 2).
  { destruct H0 as [_ H0]. rewrite CUT in H0. fold (gold_y gold_E) in H0. rewrite gold_y0 in *. specialize (H0 (Rle_refl _)). cbv zeta in H0. destruct H0 as [_ H0].
    rewrite H0 by (unfold semiconductor; lia). clear H0.
    replace (Rmax 1 (0.130 * Rpower 3 (1 / 3) ^ 2)) with 1.
    2:{ rewrite Rmax_left; [reflexivity|]. pose proof cut3_bounds as C. unfold cut3 in C. set (c := Rpower 3 (1 / 3) ^ 2) in *. clearbody c. destruct C as [C _].
        apply (Rmult_lt_compat_r c) in C; [|exact C2]. replace (1 / c * c) with 1 in C by (field; lra). revert C. decs. lra. }
    replace (Rmax 0 (1 ^ 2 - 0.8 * gold_vF ^ 2)) with 0 by (rewrite Rmax_left; [reflexivity|unfold gold_vF; decs; lra]). rewrite sqrt_0.
    replace ((1 + 0) / 2) with (1 / 2) by lra. rewrite PR by lra. fold (li_charge sc cut3 gold_E). ring. }
  set (g0 := li_charge sc (gold_y gold_E) gold_E ^ 2) in *. set (k0 := Rpower _ _ * sqrt _) in F0.
  assert (K0 : 0 < k0) by (unfold k0; apply Rmult_lt_0_compat; [apply exp_pos|apply sqrt_lt_R0, pos_quot; lra]).
  assert (G0 : 0 <= g0) by (unfold g0; apply pow2_ge_0).
  assert (AZ : 0 < az /\ 0 < g0).
  { assert (0 < g0) by (destruct G0 as [G|G]; [exact G|]; rewrite <- G in F0; rewrite Rmult_0_r in F0; lra). split; [|assumption].
    apply Rmult_lt_reg_r with (k0 * g0); [apply Rmult_lt_0_compat; assumption|]. rewrite Rmult_0_l. replace (az * (k0 * g0)) with S0 by (rewrite F0; ring). exact SP. }
  destruct AZ as [AZ GP]. assert (CG : continuity_pt (fun E => li_charge sc (gold_y E) E ^ 2) gold_E) by (apply cont_ipow, cont_charge).
  destruct (cont_near _ gold_E (0.9985 * g0) (2 * g0) CG) as (r & RP & NEAR); [cbv beta; fold g0; decs; lra|].
  set (h := Rmin (Rmin (r / 2) (1000 * d / 2)) 1). assert (HP : 0 < h) by (unfold h; repeat apply Rmin_glb_lt; lra).
  assert (HR : h < r /\ h < 1000 * d /\ h <= 1).
  { unfold h. pose proof (Rmin_l (Rmin (r / 2) (1000 * d / 2)) 1). pose proof (Rmin_r (Rmin (r / 2) (1000 * d / 2)) 1). pose proof (Rmin_l (r / 2) (1000 * d / 2)). pose proof (Rmin_r (r / 2) (1000 * d / 2)). lra. }
  clearbody h. set (E := gold_E + h). destruct (HV E ltac:(unfold E; lra)) as (S & V & H). exists (E / 1000), S. split; [unfold E; lra|]. split; [exact V|].
  destruct H as [H _]. rewrite CUT in H. fold (gold_y E) in H. assert (Y : cut3 < gold_y E).
  { destruct (gold_order E ltac:(unfold E; lra)) as [_ O]. specialize (O ltac:(unfold E; lra)). unfold gold_y, cut3. unfold Rdiv. apply Rmult_lt_compat_r; [apply Rinv_0_lt_compat; exact C2|exact O]. }
  rewrite (H Y). fold (li_charge sc (gold_y E) E). rewrite PR by (unfold E; lra). pose proof (power_gap E ltac:(unfold E; lra)) as PG. fold k0 in PG.
  destruct (NEAR E) as [N _]; [unfold E; replace (gold_E + h - gold_E) with h by ring; rewrite Rabs_right; lra|].
  rewrite F0. set (g := li_charge sc (gold_y E) E ^ 2) in *. set (k := Rpower (E / 25) 0.45) in *. clearbody g k k0 g0 az. clear - AZ GP K0 PG N.
  assert (T : 1.05 * (k0 * g0) < k * g).
  { apply Rlt_trans with (1.0518 * k0 * g).
    - assert (1.05 * g0 < 1.0518 * g) by (revert N; decs; lra). replace (1.05 * (k0 * g0)) with (k0 * (1.05 * g0)) by ring. replace (1.0518 * k0 * g) with (k0 * (1.0518 * g)) by ring. apply Rmult_lt_compat_l; assumption.
    - apply Rmult_lt_compat_r; [revert N; decs; lra|exact PG]. }
  replace (1.05 * (az * k0 * g0)) with (az * (1.05 * (k0 * g0))) by ring. replace (az * k * g) with (az * (k * g)) by ring. apply Rmult_lt_compat_l; assumption.
Qed.
Print Assumptions C60_heavy_ion.
