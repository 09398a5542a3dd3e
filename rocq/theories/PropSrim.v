(** * Properties C42 and C43: the low-energy stopping powers are positive *)
From Coq Require Import ZArith QArith Reals Qreals List Bool Lra Lia.
From Verif Require Import Num NumR Structures Srim Calculations Storage DataSrim SpecData DataProofs BoundsProofs Cases.
Import ListNotations.
Local Open Scope R_scope.

(** computed, without reading outside a table, and positive *)
Definition positive (x : outcome R) : Prop := exists v, x = Ok v /\ 0 < v.

Lemma pos_quot a b : 0 < a -> 0 < b -> 0 < a / b.
Proof. intros. apply Rdiv_lt_0_compat; assumption. Qed.
Ltac posi := lazymatch goal with
  | |- 0 < ?a / ?b => apply pos_quot; posi
  | |- 0 < ?a * ?b => apply Rmult_lt_0_compat; posi
  | |- 0 < Rlit _ => dec_norm; lra
  | _ => first [assumption | lra | idtac] end.

(** ** The fit of the proton stopping powers, one row of eight coefficients per element *)

(** all coefficients positive, and 4 c6 c7 > 1, which keeps c6/e + c7*e above 1 *)
Definition good_row (r : list dec) : bool :=
  match r with
  | [c0; c1; c2; c3; c4; c5; c6; c7] =>
      forallb (fun c => (0 <? dec_mant c)%Z) r && negb (Qle_bool (4 * (dec_Q c6 * dec_Q c7)) 1)
  | _ => false
  end.
Lemma rows_95 : length pse_95 = 92%nat /\ forallb good_row pse_95 = true.
Proof. vm_compute. split; reflexivity. Qed.
Lemma rows_85 : length proton_stopping_coef = 92%nat /\ forallb good_row proton_stopping_coef = true.
Proof. vm_compute. split; reflexivity. Qed.

(** ** The seam at 25 keV *)
Lemma glue (f g h : R -> R) a d : 0 < d -> (forall x, Rabs (x - a) < d -> x <= a -> f x = g x) ->
  (forall x, Rabs (x - a) < d -> a < x -> f x = h x) -> g a = h a ->
  continuity_pt g a -> continuity_pt h a -> continuity_pt f a.
Proof.
  intros D Fg Fh E Cg Ch eps He. destruct (Cg eps He) as (dg & Dg & Hg). destruct (Ch eps He) as (dh & Dh & Hh).
  exists (Rmin d (Rmin dg dh)). split; [repeat apply Rmin_glb_lt; assumption|].
  intros x [Hx1 Hx2]. cbn [dist R_met] in *. unfold R_dist in *.
  pose proof (Rmin_l d (Rmin dg dh)). pose proof (Rmin_r d (Rmin dg dh)). pose proof (Rmin_l dg dh). pose proof (Rmin_r dg dh).
  assert (Ea : f a = g a) by (apply Fg; [replace (a - a) with 0 by ring; rewrite Rabs_R0; exact D|lra]).
  destruct (Rle_dec x a) as [L|L].
  - rewrite Ea, (Fg x) by lra. apply Hg. split; [exact Hx1|lra].
  - rewrite Ea, E, (Fh x) by lra. apply Hh. split; [exact Hx1|lra].
Qed.

Lemma cont_pow y x : 0 < x -> continuity_pt (fun e => Rpow_c e y) x.
Proof.
  intros H.
  assert (C : continuity_pt (fun e => Rpower e y) x).
  { apply derivable_continuous_pt. exists (y * Rpower x (y - 1)). now apply derivable_pt_lim_power. }
  apply (glue _ (fun e => Rpower e y) (fun e => Rpower e y) x x H); try exact C; try reflexivity;
    intros z Hz _; apply Rpow_pos; apply Rabs_def2 in Hz; lra.
Qed.
Lemma cont_ln x : 0 < x -> continuity_pt ln x.
Proof. intros H. apply derivable_continuous_pt. exists (/ x). now apply derivable_pt_lim_ln. Qed.
Lemma cont_const k x : continuity_pt (fun _ => k) x.
Proof. apply continuity_pt_const. intros ? ?. reflexivity. Qed.
Lemma cont_scaled k x : continuity_pt (fun e => k * e) x.
Proof. apply continuity_pt_mult; [apply cont_const|apply derivable_continuous_pt, derivable_pt_id]. Qed.

Lemma fit_shape t z : length t = 92%nat -> forallb good_row t = true -> (1 <= z)%Z ->
  exists c0 c1 c2 c3 c4 c5 c6 c7,
    (0 < c0 /\ 0 < c1 /\ 0 < c2 /\ 0 < c3 /\ 0 < c4 /\ 0 < c5 /\ 0 < c6 /\ 0 < c7 /\ 1 < 4 * (c6 * c7)) /\
    let sl e := c0 * Rpow_c e c1 + c2 * Rpow_c e c3 in
    let sh e := c4 / Rpow_c e c5 * ln (c6 / e + c7 * e) in
    let s e := sl e * sh e / (sl e + sh e) in
    forall energy, p_se_with (F:=R) t z energy =
      Ok (if Rle_dec (1000 * energy) 25
          then s 25 * Rpow_c (1000 * energy / 25) (if (z >? 6)%Z then 45 / 100 else 25 / 100)
          else s (1000 * energy)).
Proof.
  intros L G Z. pose proof (srim_row_bounds z Z) as B.
  assert (HR : exists r, aget t (srim_row z) = Ok r /\ good_row r = true).
  { destruct (defined_aget t (srim_row z)) as [r Hr]; [rewrite L; lia|]. exists r. split; [exact Hr|].
    apply aget_ok in Hr. destruct Hr as [_ Hr]. apply nth_error_In in Hr. rewrite forallb_forall in G. now apply G. }
  destruct HR as (r & Hr & GR).
  destruct r as [|c0 [|c1 [|c2 [|c3 [|c4 [|c5 [|c6 [|c7 [|? ?]]]]]]]]]; try discriminate GR.
  cbn [good_row forallb] in GR. rewrite !andb_true_iff in GR. destruct GR as [(P0 & P1 & P2 & P3 & P4 & P5 & P6 & P7 & _) Q].
  rewrite <- Rlit_pos in P0, P1, P2, P3, P4, P5, P6, P7.
  exists (Rlit c0), (Rlit c1), (Rlit c2), (Rlit c3), (Rlit c4), (Rlit c5), (Rlit c6), (Rlit c7). split.
  - assert (Q' : 1 < 4 * (Rlit c6 * Rlit c7)); [|tauto].
    rewrite negb_true_iff in Q. rewrite !Rlit_Q.
    assert (X : (1 < 4 * (dec_Q c6 * dec_Q c7))%Q).
    { apply Qnot_le_lt. intros C. apply Qle_bool_iff in C. congruence. }
    apply Qlt_Rlt in X. rewrite !Q2R_mult in X. replace (Q2R 1) with 1 in X by (unfold Q2R; simpl; lra).
    replace (Q2R 4) with 4 in X by (unfold Q2R; simpl; lra). exact X.
  - intros sl sh s energy. unfold p_se_with. cbv zeta. unfold tab2. rewrite Hr. cbn [bind].
    unfold aget. cbn [Z.ltb Z.compare Z.to_nat Pos.to_nat Pos.iter_op nth_error omap bind Nat.add]. numR.
    cbn [omap bind]. replace (Rlit 1000) with 1000 by (dec_norm; lra). replace (Rlit 25) with 25 by (dec_norm; lra).
    replace (Rlit 25.0) with 25 by (dec_norm; lra). replace (Rlit 0.45) with (45 / 100) by (dec_norm; lra).
    replace (Rlit 0.25) with (25 / 100) by (dec_norm; lra). f_equal.
    destruct (Rleb_spec (1000 * energy) 25), (Rle_dec (1000 * energy) 25); try contradiction; [|reflexivity].
    destruct (z >? 6)%Z; reflexivity.
Qed.

Lemma term_pos c6 c7 e : 0 < c6 -> 0 < c7 -> 1 < 4 * (c6 * c7) -> 0 < e -> 1 < c6 / e + c7 * e.
Proof.
  intros P6 P7 Q E. set (x := c6 / e + c7 * e).
  assert (S : 4 * (c6 * c7) <= x * x).
  { replace (4 * (c6 * c7)) with (x * x - (c6 / e - c7 * e) * (c6 / e - c7 * e)) by (unfold x; field; lra).
    pose proof (Rle_0_sqr (c6 / e - c7 * e)) as S. unfold Rsqr in S. lra. }
  assert (0 < x) by (unfold x; apply Rplus_lt_0_compat; posi).
  apply Rnot_le_lt. intros C. assert (x * x <= 1 * 1) by (apply Rmult_le_compat; lra). lra.
Qed.

Lemma fit_pos t z energy : length t = 92%nat -> forallb good_row t = true -> (1 <= z)%Z -> 0 < energy ->
  positive (p_se_with (F:=R) t z energy).
Proof.
  intros L G Z E. destruct (fit_shape t z L G Z) as (c0 & c1 & c2 & c3 & c4 & c5 & c6 & c7 & P & H).
  cbv zeta in H. rewrite H. eexists. split; [reflexivity|].
  assert (S : forall e, 0 < e -> 0 < (c0 * Rpow_c e c1 + c2 * Rpow_c e c3) * (c4 / Rpow_c e c5 * ln (c6 / e + c7 * e)) /
     (c0 * Rpow_c e c1 + c2 * Rpow_c e c3 + c4 / Rpow_c e c5 * ln (c6 / e + c7 * e))).
  { intros e He. pose proof (Rpow_pos_gt0 e c1 He). pose proof (Rpow_pos_gt0 e c3 He). pose proof (Rpow_pos_gt0 e c5 He).
    assert (0 < ln (c6 / e + c7 * e)) by (rewrite <- ln_1; apply ln_increasing; [lra|apply term_pos; tauto]).
    assert (0 < c0 * Rpow_c e c1) by (apply Rmult_lt_0_compat; tauto).
    assert (0 < c2 * Rpow_c e c3) by (apply Rmult_lt_0_compat; tauto).
    assert (0 < c4 / Rpow_c e c5) by (apply pos_quot; tauto).
    assert (0 < c4 / Rpow_c e c5 * ln (c6 / e + c7 * e)) by (apply Rmult_lt_0_compat; assumption).
    apply pos_quot; [apply Rmult_lt_0_compat; lra|lra]. }
  destruct (Rle_dec (1000 * energy) 25); [|apply S; lra].
  apply Rmult_lt_0_compat; [apply S; lra|]. apply Rpow_pos_gt0. lra.
Qed.

(** the value as a function of the energy is continuous where the two formulas meet *)
Lemma fit_seam t z f : length t = 92%nat -> forallb good_row t = true -> (1 <= z)%Z ->
  (forall energy, 0 < energy -> p_se_with (F:=R) t z energy = Ok (f energy)) -> continuity_pt f (25 / 1000).
Proof.
  intros L G Z F. destruct (fit_shape t z L G Z) as (c0 & c1 & c2 & c3 & c4 & c5 & c6 & c7 & P & H).
  cbv zeta in H.
  set (s := fun e => (c0 * Rpow_c e c1 + c2 * Rpow_c e c3) * (c4 / Rpow_c e c5 * ln (c6 / e + c7 * e)) /
     (c0 * Rpow_c e c1 + c2 * Rpow_c e c3 + c4 / Rpow_c e c5 * ln (c6 / e + c7 * e))).
  set (k := if (z >? 6)%Z then 45 / 100 else 25 / 100) in *.
  assert (V : forall x, 0 < x -> f x = if Rle_dec (1000 * x) 25 then s 25 * Rpow_c (1000 * x / 25) k else s (1000 * x)).
  { intros x Hx. specialize (F x Hx). rewrite H in F. injection F as F. symmetry. exact F. }
  apply (glue f (fun x => s 25 * Rpow_c (1000 / 25 * x) k) (fun x => s (1000 * x)) (25 / 1000) (25 / 1000)); [lra| | | | |].
  - intros x Hx Lx. apply Rabs_def2 in Hx. rewrite V by lra. destruct (Rle_dec (1000 * x) 25); [|lra].
    f_equal. f_equal. field.
  - intros x Hx Lx. apply Rabs_def2 in Hx. rewrite V by lra. destruct (Rle_dec (1000 * x) 25); [lra|reflexivity].
  - replace (1000 / 25 * (25 / 1000)) with 1 by field. replace (1000 * (25 / 1000)) with 25 by field.
    rewrite Rpow_pos by lra. unfold Rpower. rewrite ln_1, Rmult_0_r, exp_0. ring.
  - apply continuity_pt_mult; [apply cont_const|].
    apply (continuity_pt_comp (fun x => 1000 / 25 * x) (fun y => Rpow_c y k)); [apply cont_scaled|apply cont_pow; lra].
  - apply (continuity_pt_comp (fun x => 1000 * x) s); [apply cont_scaled|].
    replace (1000 * (25 / 1000)) with 25 by field.
    assert (e0 : 0 < 25) by lra. pose proof (Rpow_pos_gt0 25 c5 e0) as Q5.
    assert (CL : continuity_pt (fun e => c0 * Rpow_c e c1 + c2 * Rpow_c e c3) 25).
    { apply continuity_pt_plus; (apply continuity_pt_mult; [apply cont_const|now apply cont_pow]). }
    assert (CH : continuity_pt (fun e => c4 / Rpow_c e c5 * ln (c6 / e + c7 * e)) 25).
    { apply continuity_pt_mult.
      - apply continuity_pt_div; [apply cont_const|now apply cont_pow|lra].
      - apply (continuity_pt_comp (fun e => c6 / e + c7 * e) ln).
        + apply continuity_pt_plus; [|apply cont_scaled].
          apply continuity_pt_div; [apply cont_const|apply derivable_continuous_pt, derivable_pt_id|lra].
        + apply cont_ln. pose proof (term_pos c6 c7 25). assert (1 < c6 / 25 + c7 * 25) by tauto. lra. }
    apply continuity_pt_div; [now apply continuity_pt_mult|now apply continuity_pt_plus|].
    pose proof (Rpow_pos_gt0 25 c1 e0). pose proof (Rpow_pos_gt0 25 c3 e0).
    assert (0 < ln (c6 / 25 + c7 * 25)) by (rewrite <- ln_1; apply ln_increasing; [lra|apply term_pos; tauto]).
    assert (0 < c0 * Rpow_c 25 c1) by (apply Rmult_lt_0_compat; tauto).
    assert (0 < c2 * Rpow_c 25 c3) by (apply Rmult_lt_0_compat; tauto).
    assert (0 < c4 / Rpow_c 25 c5) by (apply pos_quot; tauto).
    assert (0 < c4 / Rpow_c 25 c5 * ln (c6 / 25 + c7 * 25)) by (apply Rmult_lt_0_compat; assumption). lra.
Qed.

Theorem C42_proton z energy : (1 <= z)%Z -> 0 < energy ->
  positive (p_se (F:=R) z energy) /\ positive (p_se85 (F:=R) z energy).
Proof. intros Z E. split; apply fit_pos; try assumption; (apply rows_95 || apply rows_85). Qed.
Print Assumptions C42_proton.
Theorem C42_seam z (f g : R -> R) : (1 <= z)%Z ->
  (forall energy, 0 < energy -> p_se z energy = Ok (f energy) /\ p_se85 z energy = Ok (g energy)) ->
  continuity_pt f (25 / 1000) /\ continuity_pt g (25 / 1000).
Proof.
  intros Z H. split.
  - apply (fit_seam pse_95 z); try exact Z; try apply rows_95. intros e He. now apply H.
  - apply (fit_seam proton_stopping_coef z); try exact Z; try apply rows_85. intros e He. now apply H.
Qed.
Print Assumptions C42_seam.

(** ** Any ion *)
Lemma vfermi_pos : forallb (fun c => (0 <? dec_mant c)%Z) atima_vfermi = true.
Proof. vm_compute. reflexivity. Qed.
Lemma screening_pos : forallb (fun c => (0 <? dec_mant c)%Z) atima_lambda_screening = true.
Proof. vm_compute. reflexivity. Qed.
Lemma tab1_pos t i : forallb (fun c => (0 <? dec_mant c)%Z) t = true -> (0 <= i < Z.of_nat (length t))%Z ->
  positive (tab1 (F:=R) t i).
Proof.
  intros P B. unfold tab1. destruct (defined_aget t i B) as [c Hc]. rewrite Hc. exists (lit c). split; [reflexivity|].
  apply aget_ok in Hc. destruct Hc as [_ Hc]. apply nth_error_In in Hc. rewrite forallb_forall in P.
  apply Rlit_pos. now apply P.
Qed.

Lemma fmaxR a b : fmax (F:=R) a b = Rmax a b.
Proof. unfold fmax. numR. unfold Rmax. destruct (Rltb_spec a b), (Rle_dec a b); try lra. Qed.
Lemma fminR a b : fmin (F:=R) a b = Rmin a b.
Proof. unfold fmin. numR. unfold Rmin. destruct (Rltb_spec b a), (Rle_dec a b); try lra. Qed.

Lemma clamp01 a : 0 <= fmin (F:=R) (Rlit 1.0) (fmax (Rlit 0.0) a) <= 1.
Proof.
  rewrite fminR, fmaxR. replace (Rlit 1.0) with 1 by (dec_norm; lra). replace (Rlit 0.0) with 0 by (dec_norm; lra).
  pose proof (Rmax_l 0 a). split; [apply Rmin_glb; lra|apply Rmin_l].
Qed.
Lemma length_pos l1 q k z13 sc : 0 < z13 -> 0 < sc -> q = 0 -> 0 < fmax (F:=R) l1 ((Rlit 0.8 - q * k) * z13 * sc).
Proof.
  intros Z S ->. rewrite fmaxR. eapply Rlt_le_trans; [|apply Rmax_r]. rewrite Rmult_0_l.
  apply Rmult_lt_0_compat; [|exact S]. apply Rmult_lt_0_compat; [|exact Z]. dec_norm. lra.
Qed.

(** helium: the exponent polynomial in ln e is positive for e >= 1 *)
Lemma he_poly b : 0 <= b ->
  0 < 2865 / 10000 + b * (1266 / 10000 + b * (-1429 / 1000000 + b * (2402 / 100000 + b * (-1135 / 100000 + b * (1475 / 1000000))))).
Proof.
  intros H.
  assert (Q2 : 2 / 1000 < 2402 / 100000 + b * (-1135 / 100000 + b * (1475 / 1000000))).
  { assert (0 <= (b - 4) * (b - 4)) by (apply Rle_0_sqr). nra. }
  set (q := 2402 / 100000 + b * (-1135 / 100000 + b * (1475 / 1000000))) in *.
  assert (Q1 : 0 < 1266 / 10000 + b * (-1429 / 1000000 + b * q)).
  { assert (b * (2 / 1000) <= b * q) by (apply Rmult_le_compat_l; lra).
    assert (b * (-1429 / 1000000 + b * (2 / 1000)) <= b * (-1429 / 1000000 + b * q)) by (apply Rmult_le_compat_l; lra). nra. }
  assert (0 <= b * (1266 / 10000 + b * (-1429 / 1000000 + b * q))) by (apply Rmult_le_pos; lra). lra.
Qed.

Theorem C42_any_ion pz tz energy new : (1 <= pz <= 46340)%Z -> (1 <= tz)%Z -> 0 < energy ->
  positive (srim_dedx_e (F:=R) pz tz energy new).
Proof.
  intros P T E. unfold srim_dedx_e. cbv zeta. set (f := if new then p_se else p_se85).
  assert (Hf : forall e, 0 < e -> positive (f tz e)).
  { intros e He. unfold f. destruct new; apply fit_pos; try assumption; (apply rows_95 || apply rows_85). }
  clearbody f. numR. set (e := energy * Rlit 1000). assert (e0 : 0 < e) by (unfold e; dec_norm; lra).
  destruct (Z.eqb_spec pz 1) as [_|N1]; [now apply Hf|]. destruct (Z.eqb_spec pz 2) as [_|N2].
  - unfold srim_he. cbv zeta. numR. destruct (Hf energy E) as (sp & -> & SP). cbn [bind].
    set (e1 := if Rleb e (Rlit 1) then Rlit 1 else e).
    assert (E1 : 1 <= e1).
    { unfold e1. destruct (Rleb_spec e (Rlit 1)) as [L|L]; [dec_norm; lra|]. revert L. dec_norm. lra. }
    assert (B : 0 <= ln e1) by (rewrite <- ln_1; destruct E1 as [E1|<-]; [left; apply ln_increasing; lra|right; reflexivity]).
    match goal with |- context [fmin (Rlit 30) ?a] => assert (A : 0 < a) by (pose proof (he_poly (ln e1) B) as X; dec_norm; lra);
       set (a0 := a) in * end.
    rewrite fminR. assert (Q : 0 < 1 - exp (- Rmin (Rlit 30) a0)).
    { assert (0 < Rmin (Rlit 30) a0) by (apply Rmin_glb_lt; [dec_norm; lra|exact A]).
      assert (exp (- Rmin (Rlit 30) a0) < exp 0) by (apply exp_increasing; lra). rewrite exp_0 in *. lra. }
    eexists. split; [reflexivity|].
    match goal with |- context [Rlit 1.0 + ?x * exp ?y] => set (aa := Rlit 1.0 + x * exp y);
      assert (AA : 0 < aa) end.
    { unfold aa. match goal with |- 0 < _ + _ * exp ?y => pose proof (exp_pos y) as X; set (ee := exp y) in * end.
      pose proof (IZR_le 1 tz T). apply Rplus_lt_0_compat; [dec_norm; lra|]. apply Rmult_lt_0_compat; [dec_norm; lra|exact X]. }
    assert (M : 0 < sp * ((Rlit 1.0 - exp (- Rmin (Rlit 30) a0)) * (aa * aa)) * Rlit 4.0).
    { replace (Rlit 1.0) with 1 by (dec_norm; lra). replace (Rlit 4.0) with 4 by (dec_norm; lra).
      repeat apply Rmult_lt_0_compat; lra. }
    destruct (Reqb e1 (Rlit 1)); [|exact M]. apply Rmult_lt_0_compat; [exact M|]. apply sqrt_lt_R0. lra.
  - unfold srim_hi. cbv zeta. numR.
    pose proof (srim_row_bounds tz T). pose proof (srim_row_bounds pz ltac:(lia)).
    destruct (tab1_pos atima_vfermi (srim_row tz) vfermi_pos) as (vf & -> & VF); [rewrite vfermi_size; lia|]. cbn [bind].
    destruct (tab1_pos atima_lambda_screening (srim_row pz) screening_pos) as (sc & -> & SC); [rewrite screening_size; lia|]. cbn [bind].
    rewrite imul_ok by nia. cbn [bind].
    assert (PZ : 3 <= IZR pz) by (apply IZR_le; lia).
    set (z13 := Rlit 1.0 / Rpow_c (IZR pz) (Rlit 1.0 / Rlit 3.0)).
    assert (Z13 : 0 < z13) by (apply pos_quot; [dec_norm; lra|apply Rpow_pos_gt0; lra]).
    match goal with |- context [fmin (Rlit 1.0) (fmax (Rlit 0.0) ?a)] =>
      pose proof (clamp01 a) as Q; set (q := fmin (Rlit 1.0) (fmax (Rlit 0.0) a)) in *; clearbody q end.
    match goal with |- context [fmax ?l1 ((Rlit 0.8 - q * ?k) * z13 * sc)] =>
      pose proof (length_pos l1 q k z13 sc Z13 SC) as LP; set (l := fmax l1 ((Rlit 0.8 - q * k) * z13 * sc)) in *; clearbody l end.
    set (h1 := Rlit 4.0 * l * vf / Rlit 1.919).
    assert (ZT : 0 < q + Rlit 1 / (Rlit 2 * (vf * vf)) * (Rlit 1 - q) * ln (1 + h1 * h1)).
    { assert (SQ : 0 <= h1 * h1) by apply Rle_0_sqr.
      assert (K : 0 < Rlit 1 / (Rlit 2 * (vf * vf))).
      { apply pos_quot; [dec_norm; lra|]. repeat apply Rmult_lt_0_compat; try assumption. dec_norm; lra. }
      replace (Rlit 1) with 1 in * by (dec_norm; lra).
      assert (LN : 0 <= ln (1 + h1 * h1)).
      { destruct SQ as [SQ|SQ]; [left; rewrite <- ln_1; apply ln_increasing; lra|].
        rewrite <- SQ, Rplus_0_r, ln_1. lra. }
      destruct (Req_dec q 0) as [q0|q0].
      - rewrite q0. specialize (LP q0).
        assert (H1 : 0 < h1) by (unfold h1; apply pos_quot; [repeat apply Rmult_lt_0_compat; try assumption; dec_norm; lra|dec_norm; lra]).
        assert (0 < h1 * h1) by (apply Rmult_lt_0_compat; assumption).
        assert (0 < ln (1 + h1 * h1)) by (rewrite <- ln_1; apply ln_increasing; lra).
        rewrite Rplus_0_l, Rminus_0_r, Rmult_1_r. apply Rmult_lt_0_compat; assumption.
      - apply Rplus_lt_le_0_compat; [lra|]. apply Rmult_le_pos; [apply Rmult_le_pos; lra|exact LN]. }
    match goal with |- context [(q + ?a) * ?b * IZR pz] => set (c1 := (q + a) * b * IZR pz);
      assert (C1 : 0 < c1) end.
    { unfold c1. apply Rmult_lt_0_compat; [|lra]. apply Rmult_lt_0_compat; [exact ZT|].
      match goal with |- 0 < _ + _ * _ * exp ?y => pose proof (exp_pos y) as X; set (ee := exp y) in * end.
      pose proof (IZR_le 1 tz T). apply Rplus_lt_0_compat; [dec_norm; lra|].
      apply Rmult_lt_0_compat; [|exact X]. apply Rmult_lt_0_compat; [|dec_norm; lra].
      apply pos_quot; [dec_norm; lra|]. apply IZR_lt. nia. }
    clearbody c1. match goal with |- context [if Rleb ?a ?b then _ else _] => destruct (Rleb a b) end.
    + set (vmin := Rlit 0.5 * _).
      assert (VM : 0 < vmin).
      { unfold vmin. apply Rmult_lt_0_compat; [dec_norm; lra|]. rewrite !fmaxR.
        apply Rplus_lt_le_0_compat; [|apply sqrt_pos].
        apply Rlt_le_trans with (Rlit 1.0); [dec_norm; lra|apply Rmax_l]. }
      clearbody vmin. set (eee := Rlit 25.0 * vmin * vmin).
      assert (EE : 0 < eee) by (unfold eee; repeat apply Rmult_lt_0_compat; try assumption; dec_norm; lra).
      destruct (Hf (eee * Rlit 0.001)) as (sp & -> & SP); [apply Rmult_lt_0_compat; [exact EE|dec_norm; lra]|]. cbn [bind].
      eexists. split; [reflexivity|]. repeat apply Rmult_lt_0_compat; try assumption.
      apply Rpow_pos_gt0, pos_quot; assumption.
    + destruct (Hf energy E) as (sp & -> & SP). cbn [bind]. eexists. split; [reflexivity|].
      apply Rmult_lt_0_compat; [exact SP|]. now apply Rpow_pos_gt0.
Qed.
Print Assumptions C42_any_ion.

(** ** The stopping power up to 10 MeV/u *)
(** ** C43: nuclear stopping *)
Theorem C43_positive p t : 0 < pT p -> 0 < pA p -> 0 < pZ p -> 0 < tA t -> (1 <= tZ t)%Z -> 0 < dedx_n_t (F:=R) p t.
Proof.
  intros T A Z TA TZ. apply IZR_le in TZ. unfold dedx_n_t. cbv zeta. numR.
  assert (Q1 : 0 < Rpow_c (pZ p) (Rlit 0.23)) by (apply Rpow_pos_gt0; exact Z).
  assert (Q2 : 0 < Rpow_c (IZR (tZ t)) (Rlit 0.23)) by (apply Rpow_pos_gt0; lra).
  set (zp := Rpow_c (pZ p) (Rlit 0.23) + Rpow_c (IZR (tZ t)) (Rlit 0.23)).
  assert (ZP : 0 < zp) by (unfold zp; lra). clearbody zp.
  set (eps := Rlit 32.53 * tA t * Rlit 1000 * pT p * pA p / (pZ p * IZR (tZ t) * (pA p + tA t) * zp)).
  assert (EP : 0 < eps).
  { unfold eps. posi. }
  clearbody eps. destruct (Rleb_spec eps (Rlit 0)) as [L|_]; [revert L; dec_norm; lra|].
  apply pos_quot; [|repeat apply Rmult_lt_0_compat; lra].
  apply Rmult_lt_0_compat; [|unfold Avogadro; numR; dec_norm; lra].
  apply Rmult_lt_0_compat.
  { posi. }
  destruct (Rleb_spec eps (Rlit 30)) as [L|L].
  - apply pos_quot.
    + rewrite <- ln_1. apply ln_increasing; [lra|]. dec_norm. lra.
    + apply Rmult_lt_0_compat; [dec_norm; lra|].
      pose proof (Rpow_pos_gt0 eps (Rlit 0.21226) EP). pose proof (Rpow_pos_gt0 eps (Rlit 0.5) EP).
      apply Rplus_lt_0_compat; [apply Rplus_lt_0_compat; [exact EP|]|]; apply Rmult_lt_0_compat; try assumption; dec_norm; lra.
  - assert (1 < eps) by (revert L; dec_norm; lra).
    apply pos_quot; [rewrite <- ln_1; apply ln_increasing; lra|].
    apply Rmult_lt_0_compat; [dec_norm; lra|exact EP].
Qed.

Print Assumptions C43_positive.

(** carbon and uranium ions on oxygen; the reduced energy of the first is above 30, of the second below *)
Example C43_case : 0 < dedx_n_t (mkProj 12 6 6 5) (mkTarget 16 8 1) /\ 0 < dedx_n_t (mkProj 238 92 92 (1 / 1000)) (mkTarget 16 8 1).
Proof. split; apply C43_positive; cbn; try lia; lra. Qed.

(** a material with at least one constituent and positive masses and shares *)
Definition solid (m : Material R) : Prop :=
  m_atoms m <> [] /\ 0 < m_M m /\ Forall (fun t => 0 < tA t /\ (1 <= tZ t)%Z /\ 0 < tstn t) (m_atoms m).
Definition ion (p : Projectile R) : Prop := 0 < pA p /\ 1 <= pZ p < 46341.

Lemma wfrac_pos m t : 0 < m_M m -> 0 < tA t -> 0 < tstn t -> 0 < wfrac (F:=R) m t.
Proof.
  intros M A S. unfold wfrac. numR. destruct (Rltb _ _); [exact S|]. apply pos_quot; [apply Rmult_lt_0_compat; assumption|exact M].
Qed.

Lemma nuclear_sum_pos p m : 0 < pT p -> 0 < pA p -> 0 < pZ p -> solid m -> 0 < dedx_n (F:=R) p m.
Proof.
  intros T A Z (NE & M & S). unfold dedx_n. rewrite Forall_forall in S.
  assert (G : forall l b, (forall t, In t l -> 0 < tA t /\ (1 <= tZ t)%Z /\ 0 < tstn t) ->
     b <= fold_left (fun s t => s + wfrac m t * dedx_n_t p t) l b /\
     (l <> [] -> b < fold_left (fun s t => s + wfrac m t * dedx_n_t p t) l b)).
  { induction l as [|t l IH]; intros b H; cbn [fold_left]; [split; [lra|contradiction]|].
    destruct (H t (or_introl eq_refl)) as (TA & TZ & TS).
    assert (0 < wfrac m t * dedx_n_t p t) by (apply Rmult_lt_0_compat; [now apply wfrac_pos|now apply C43_positive]).
    destruct (IH (b + wfrac m t * dedx_n_t p t)) as [I1 _]; [intros; apply H; now right|]. split; [lra|intros _; lra]. }
  destruct (G (m_atoms m) 0 S) as [_ G']. specialize (G' NE). numR. replace (Rlit 0.0) with 0 by (dec_norm; lra). exact G'.
Qed.

Lemma sezi_pos p m c : 0 < pT p -> ion p -> solid m -> positive (sezi_dedx_e (F:=R) p m c).
Proof.
  intros T (A & Z) (NE & M & S). unfold sezi_dedx_e. cbv zeta. rewrite Forall_forall in S.
  assert (ZI : fto_int (pZ p) = Some (Rfloor_Z (pZ p)) /\ (1 <= Rfloor_Z (pZ p) <= 46340)%Z).
  { numR. destruct (Rfloor_bound (pZ p)) as [F1 F2].
    assert (B1 : (0 < Rfloor_Z (pZ p))%Z) by (apply lt_IZR; lra).
    assert (B2 : (Rfloor_Z (pZ p) < 46341)%Z) by (apply lt_IZR; lra).
    split; [apply Rto_int_nonneg; lra|lia]. }
  destruct ZI as [ZI ZB]. rewrite ZI. cbn [cast bind].
  set (f := fun (sum : R) (t : Target R) => _).
  assert (G : forall l b, (forall t, In t l -> 0 < tA t /\ (1 <= tZ t)%Z /\ 0 < tstn t) ->
     exists v, ofold f l b = Ok v /\ b <= v /\ (l <> [] -> b < v)).
  { induction l as [|t l IH]; intros b H; cbn [ofold]; [exists b; split; [reflexivity|split; [lra|contradiction]]|].
    destruct (H t (or_introl eq_refl)) as (TA & TZ & TS). unfold f at 1.
    destruct (C42_any_ion (Rfloor_Z (pZ p)) (tZ t) (pT p) (c_low c =? srim_95)%Z ZB TZ T) as (d & -> & D). cbn [bind].
    change (fadd b (fdiv (fmul (wfrac m t) d) (tA t))) with (b + wfrac m t * d / tA t).
    assert (W : 0 < wfrac m t * d / tA t) by (apply pos_quot; [apply Rmult_lt_0_compat; [now apply wfrac_pos|exact D]|exact TA]).
    destruct (IH (b + wfrac m t * d / tA t)) as (v & -> & V & _); [intros; apply H; now right|].
    exists v. split; [reflexivity|]. split; [lra|intros _; lra]. }
  destruct (G (m_atoms m) (lit 0.0) S) as (v & -> & _ & V). specialize (V NE). cbn [bind].
  eexists. split; [reflexivity|]. numR. revert V. replace (Rlit 0.0) with 0 by (dec_norm; lra). intros V.
  apply Rmult_lt_0_compat; [apply Rmult_lt_0_compat; [dec_norm; lra|exact V]|unfold Avogadro; numR; dec_norm; lra].
Qed.

Theorem C42_dedx p m c : 0 < pT p -> pT p <= 10 -> ion p -> solid m -> positive (dedx (F:=R) p m c).
Proof.
  intros T1 T2 I S. destruct (sezi_pos p m c T1 I S) as (s & Hs & P).
  assert (NP : 0 < dedx_n p m) by (apply nuclear_sum_pos; [exact T1|apply I|destruct I as [_ [I _]]; lra|exact S]).
  exists (dedx_n p m + s). split; [|lra].
  unfold dedx. rewrite Hs. numR.
  destruct (Rleb_spec (pT p) (Rlit 0)) as [L|_]; [revert L; dec_norm; lra|].
  destruct (Rleb_spec (pT p) (Rlit 10)) as [_|N]; [|exfalso; apply N; dec_norm; lra].
  cbn [bind]. f_equal. dec_norm. ring.
Qed.
Print Assumptions C42_dedx.

(** carbon ions of 5 MeV/u in water, uranium ions of 1 keV/u in graphite *)
Example C42_case : positive (dedx (carbon 5) (water 1) conf) /\ positive (dedx (mkProj 238 92 92 (1 / 1000)) (graphite 1) conf) /\
  0 < dedx_n_t (carbon 5) (mkTarget 16 8 1).
Proof.
  split; [|split].
  - apply C42_dedx; try (cbn; lra).
    + unfold ion, carbon. cbn. lra.
    + unfold solid, water. cbn. split; [discriminate|]. split; [lra|]. repeat constructor; cbn; try lia; lra.
  - apply C42_dedx; try (cbn; lra).
    + unfold ion. cbn. lra.
    + unfold solid, graphite. cbn. split; [discriminate|]. split; [lra|]. repeat constructor; cbn; try lia; lra.
  - apply C43_positive; cbn; try lia; lra.
Qed.
