(** * C44, C45: reaction probabilities, the Kox cross section, production rate *)
From Coq Require Import ZArith Reals List Bool Lra Lia.
From Verif Require Import Num NumR Structures Integrator DataQuadrature NucData Reactions Storage Catima SpecData DataProofs BoundsProofs ApiTotal Cases PropMaterial PropKin PropSrim QuadProofs PropQuad.
Import ListNotations.
Local Open Scope R_scope.

(** ** Probabilities *)
Lemma exp_le1 x : x <= 0 -> 0 < exp x <= 1.
Proof. intros H. split; [apply exp_pos|]. rewrite <- exp_0. destruct H as [H| ->]; [left; now apply exp_increasing|right; reflexivity]. Qed.
Theorem C44_rates : (forall s t : R, reaction_rate s t + nonreaction_rate_st s t = 1) /\
  (forall s t : R, 0 <= s -> 0 <= t -> 0 <= reaction_rate s t < 1 /\ 0 < nonreaction_rate_st s t <= 1) /\
  (forall s t u : R, nonreaction_rate_st s (t + u) = nonreaction_rate_st s t * nonreaction_rate_st s u) /\
  (forall s t u : R, 0 < s -> t < u -> nonreaction_rate_st s u < nonreaction_rate_st s t) /\
  (forall s : R, nonreaction_rate_st s 0 = 1).
Proof.
  unfold reaction_rate, nonreaction_rate_st. numR. assert (E : Rlit 0.0001 = 1 / 10000) by (dec_norm; lra). replace (Rlit 1.0) with 1 by (dec_norm; lra). rewrite E.
  split; [intros; ring|]. split.
  { intros s t S T. assert (- s * t * (1 / 10000) <= 0) by nra. pose proof (exp_le1 _ H). lra. }
  split; [intros s t u; rewrite <- exp_plus; f_equal; ring|]. split.
  { intros s t u S T. apply exp_increasing. nra. }
  intros s. rewrite Rmult_0_r, Rmult_0_l. apply exp_0.
Qed.
Print Assumptions C44_rates.

Lemma quad_nonneg r f a b I : In r gl_rules -> a < b -> (forall x u, a < x < b -> f x = Ok u -> 0 <= u) -> quad r f a b = Ok I -> 0 <= I.
Proof.
  intros IN T H E. destruct r as [[n xs] ws].
  assert (Z0 : quad (n, xs, ws) (fun _ => Ok 0) a b = Ok 0).
  { rewrite (quad_total n xs ws) by (exact IN || reflexivity). f_equal. unfold tot.
    assert (PZ : forall l p q, pair_sum l (fun _ => 0) p q = 0) by (induction l as [|[u v] l IH]; intros; cbn [pair_sum]; [reflexivity|]; rewrite IH; ring).
    unfold node_sum. destruct (Nat.odd n); [|rewrite PZ; ring]. destruct (gl_nodes xs ws) as [|[u v] l]; [ring|]. rewrite PZ. ring. }
  refine (C26_monotone _ _ _ _ _ _ _ IN (Rlt_le _ _ T) _ Z0 E). intros x u v X U V. injection U as <-. exact (H x v X V).
Qed.
(** the overload taking a cross-section function *)
Theorem C44_rate_of_function f t P : 0 < t -> (forall x u, 0 < x < t -> f x = Ok u -> 0 <= u) -> reaction_rate_f (F:=R) f t = Ok P -> 0 <= P < 1.
Proof.
  intros T H E. unfold reaction_rate_f in E. destruct (integrate f (lit 0) t) as [i|] eqn:I; cbn [bind] in E; [|discriminate].
  destruct C26_library as [IN L]. rewrite L in I. revert E I. numR. replace (Rlit 0) with 0 by (dec_norm; lra). intros E I.
  assert (P0 : 0 <= i) by (apply (quad_nonneg _ _ _ _ _ IN T H I)).
  assert (PE : P = Rlit 1.0 - exp (- i * Rlit 0.0001)) by congruence. rewrite PE. assert (R4 : Rlit 0.0001 = 1 / 10000) by (dec_norm; lra). rewrite R4. assert (Q : - i * (1 / 10000) <= 0) by lra. pose proof (exp_le1 _ Q). replace (Rlit 1.0) with 1 by (dec_norm; lra). lra.
Qed.
Print Assumptions C44_rate_of_function.

(** ** The cross section *)
(** mass numbers and charges of nuclei: more than half of A = 243 nucleons or fewer protons than 87 per cent *)
Definition nucleus (A Z : Z) : Prop := (1 <= Z <= A)%Z /\ (A <= 298)%Z /\ (A <= 243 \/ 100 * Z <= 87 * A)%Z.

Definition cube13 (A : Z) : R := Rpower (IZR A) (1 / 3).
Lemma cube13_cube A : (1 <= A)%Z -> 1 <= cube13 A /\ cube13 A * cube13 A * cube13 A = IZR A.
Proof.
  intros H. assert (1 <= IZR A) by (apply IZR_le; exact H). unfold cube13. set (r := Rpower (IZR A) (1 / 3)).
  assert (E : r * r * r = IZR A).
  { unfold r. rewrite <- !Rpower_plus. replace (1 / 3 + 1 / 3 + 1 / 3) with 1 by lra. apply Rpower_1. lra. }
  split; [|exact E]. assert (P : 0 < r) by apply exp_pos. apply Rnot_lt_le. intros L. assert (r * r < 1) by nra. nra.
Qed.
(** the energy dependent transparency term, as a function of log10 E *)
Definition kox_c (x : R) : R := if Rlt_dec x (3 / 2) then (2 - 10 / (3 / 2) ^ 5) * (x / (3 / 2)) ^ 3 else 2 - 10 / x ^ 5.
Definition kox_radius (Ap Zp At Zt : Z) (x : R) : R :=
  11 / 10 * (cube13 Ap + cube13 At) + (11 / 10 * (185 / 100 * cube13 Ap * cube13 At / (cube13 Ap + cube13 At) - kox_c x) + 5 * IZR (At - 2 * Zt) * IZR Zp / IZR (Ap * At)).
Definition barrier (Ap Zp At Zt : Z) : R := IZR (Zp * Zt) / (13 / 10 * (cube13 Ap + cube13 At)).
Definition kox (Ap Zp At Zt : Z) (E : R) : R :=
  10 * PI_ * kox_radius Ap Zp At Zt (ln E / ln 10) ^ 2 * (1 - barrier Ap Zp At Zt / (E * IZR Ap * IZR At / (IZR Ap + IZR At))).

Lemma Rpow_nat x n : Rpow_c x (INR (S n)) = x ^ S n.
Proof.
  unfold Rpow_c. destruct (Rlt_dec 0 x) as [P|P]; [apply Rpower_pow; exact P|].
  destruct (Req_EM_T x 0) as [->|N].
  - destruct (Req_EM_T (INR (S n)) 0) as [E|_]; [exfalso; revert E; apply not_0_INR; lia|]. rewrite pow_ne_zero; [reflexivity|lia].
  - assert (I : Int_part (INR (S n)) = Z.of_nat (S n)) by (rewrite INR_IZR_INZ; apply Rfloor_IZR).
    rewrite I, <- INR_IZR_INZ. destruct (Req_EM_T (INR (S n)) (INR (S n))) as [_|C]; [|congruence]. symmetry. apply pow_powerRZ.
Qed.
Lemma kox_value Ap Zp E At Zt : (1 <= Ap <= 1000)%Z -> (1 <= At <= 1000)%Z -> (0 <= Zp <= 1000)%Z -> (0 <= Zt <= 1000)%Z ->
  SigmaR_Kox (F:=R) Ap Zp E At Zt = Ok (kox Ap Zp At Zt E).
Proof.
  intros HA HB HC HD. unfold SigmaR_Kox. cbv zeta. rewrite !imul_ok by nia. cbn [bind]. rewrite isub_ok by lia. cbn [bind]. f_equal. unfold kox, kox_radius, barrier, kox_c, cube13, Ecm_from_T. numR.
  assert (1 <= IZR Ap) by (apply IZR_le; lia). assert (1 <= IZR At) by (apply IZR_le; lia). rewrite !(Rpow_pos (IZR _)) by lra.
  replace (Rlit 1.0 / Rlit 3.0) with (1 / 3) by (dec_norm; field). set (x := ln E / ln 10). set (a := Rpower (IZR Ap) (1 / 3)). set (b := Rpower (IZR At) (1 / 3)).
  assert (A : 0 < a) by apply exp_pos. assert (B : 0 < b) by apply exp_pos. clearbody x a b.
  replace (Rlit 3) with (INR 3) by (cbn [INR]; dec_norm; lra). replace (Rlit 5) with (INR 5) by (cbn [INR]; dec_norm; lra). rewrite !Rpow_nat.
  replace (Rlit 1.5) with (3 / 2) by (dec_norm; lra). replace (Rlit 1.3) with (13 / 10) by (dec_norm; lra). replace (Rlit 1.1) with (11 / 10) by (dec_norm; lra).
  replace (Rlit 1.85) with (185 / 100) by (dec_norm; lra). replace (Rlit 2) with 2 by (dec_norm; lra). replace (Rlit 10.0) with 10 by (dec_norm; lra).
  replace (Rlit (-10.0)) with (-10) by (dec_norm; lra). replace (Rlit 5.0) with 5 by (dec_norm; lra). replace (Rlit 1) with 1 by (dec_norm; lra).
  match goal with |- context [if Rltb x (3 / 2) then ?u else ?v] => assert (C : (if Rltb x (3 / 2) then u else v) = (if Rlt_dec x (3 / 2) then (2 - 10 / (3 / 2) ^ 5) * (x / (3 / 2)) ^ 3 else 2 - 10 / x ^ 5)) end.
  { destruct (Rltb_spec x (3 / 2)), (Rlt_dec x (3 / 2)); try contradiction; [|unfold Rdiv; ring]. f_equal. lra. }
  rewrite C. set (c := if Rlt_dec x (3 / 2) then _ else _). clearbody c. ring.
Qed.

(** not negative from 30 MeV/u on *)
Theorem C44_kox_nonneg Ap Zp E At Zt : nucleus Ap Zp -> nucleus At Zt -> 30 <= E ->
  exists s, SigmaR_Kox (F:=R) Ap Zp E At Zt = Ok s /\ 0 <= s.
Proof.
  intros (P1 & P2 & P3) (T1 & T2 & T3) E30. exists (kox Ap Zp At Zt E). split; [apply kox_value; lia|]. unfold kox, barrier.
  destruct (cube13_cube Ap ltac:(lia)) as [X1 X3]. destruct (cube13_cube At ltac:(lia)) as [Y1 Y3].
  assert (XA : cube13 Ap <= 668 / 100) by (apply Rnot_lt_le; intros L; assert (IZR Ap <= 298) by (apply IZR_le; lia); set (x := cube13 Ap) in *; assert (x * x > 446224 / 10000) by nra; nra).
  assert (YA : cube13 At <= 668 / 100) by (apply Rnot_lt_le; intros L; assert (IZR At <= 298) by (apply IZR_le; lia); set (x := cube13 At) in *; assert (x * x > 446224 / 10000) by nra; nra).
  assert (XB : (Ap <= 243)%Z -> cube13 Ap <= 6241 / 1000) by (intros LE; apply Rnot_lt_le; intros L; assert (IZR Ap <= 243) by (apply IZR_le; lia); set (x := cube13 Ap) in *; assert (x * x > 38950 / 1000) by nra; nra).
  assert (YB : (At <= 243)%Z -> cube13 At <= 6241 / 1000) by (intros LE; apply Rnot_lt_le; intros L; assert (IZR At <= 243) by (apply IZR_le; lia); set (x := cube13 At) in *; assert (x * x > 38950 / 1000) by nra; nra).
  rewrite mult_IZR. rewrite <- X3, <- Y3. 
  assert (ZP : 0 < IZR Zp <= cube13 Ap * cube13 Ap * cube13 Ap) by (rewrite X3; split; [apply IZR_lt|apply IZR_le]; lia).
  assert (ZT : 0 < IZR Zt <= cube13 At * cube13 At * cube13 At) by (rewrite Y3; split; [apply IZR_lt|apply IZR_le]; lia).
  assert (ZZ : (cube13 Ap <= 6241 / 1000 /\ cube13 At <= 6241 / 1000) \/
    IZR Zp * IZR Zt <= 87 / 100 * ((cube13 Ap * cube13 Ap * cube13 Ap) * (cube13 At * cube13 At * cube13 At))).
  { rewrite X3, Y3. assert (1 <= IZR Zp) by (apply IZR_le; lia). assert (1 <= IZR Zt) by (apply IZR_le; lia).
    assert (IZR Zp <= IZR Ap) by (apply IZR_le; lia). assert (IZR Zt <= IZR At) by (apply IZR_le; lia).
    destruct P3 as [P3|P3]; [destruct T3 as [T3|T3]|].
    - left. auto.
    - right. apply IZR_le in T3. rewrite !mult_IZR in T3. nra.
    - right. apply IZR_le in P3. rewrite !mult_IZR in P3. nra. }
  clear XB YB. set (x := cube13 Ap) in *. set (y := cube13 At) in *. set (zp := IZR Zp) in *. set (zt := IZR Zt) in *.
  set (rr := kox_radius _ _ _ _ _). clearbody rr zp zt. clear X3 Y3 P1 P2 P3 T1 T2 T3. clearbody x y.
  assert (PP : 0 < PI_ (F:=R)) by (unfold PI_; numR; dec_norm; lra).
  apply Rmult_le_pos; [apply Rmult_le_pos; [lra|rewrite <- Rsqr_pow2; apply Rle_0_sqr]|].
  set (q := x * x - x * y + y * y).
  assert (X0 : 0 < x * x * x) by (repeat apply Rmult_lt_0_compat; lra). assert (Y0 : 0 < y * y * y) by (repeat apply Rmult_lt_0_compat; lra).
  assert (EQ : zp * zt / (13 / 10 * (x + y)) / (E * (x * x * x) * (y * y * y) / (x * x * x + y * y * y)) = zp * zt / ((x * x * x) * (y * y * y)) * (q / (13 / 10 * E))).
  { unfold q. field. repeat split; lra. }
  rewrite EQ. clear EQ. set (ap := x * x * x) in *. set (at_ := y * y * y) in *.
  set (f := zp * zt / (ap * at_)). assert (AA : 0 < ap * at_) by (apply Rmult_lt_0_compat; assumption).
  assert (Q0 : 0 < q) by (unfold q; nra). 
  assert (F1 : 0 <= f <= 1).
  { split; [left; apply pos_quot; [apply Rmult_lt_0_compat; lra|exact AA]|]. unfold f. apply Rmult_le_reg_r with (ap * at_); [exact AA|].
    unfold Rdiv. rewrite Rmult_assoc, Rinv_l by lra. rewrite Rmult_1_r, Rmult_1_l. apply Rmult_le_compat; lra. }
  assert (FQ : f * q <= 39).
  { destruct ZZ as [[A B]|ZZ].
    - assert (q <= 39) by (unfold q; destruct (Rle_lt_dec x y); nra). nra.
    - assert (FF : f <= 87 / 100).
      { unfold f. apply Rmult_le_reg_r with (ap * at_); [exact AA|]. unfold Rdiv at 1. rewrite Rmult_assoc, Rinv_l by lra. lra. }
      assert (q <= 44626 / 1000) by (unfold q; destruct (Rle_lt_dec x y); nra). nra. }
  assert (f * (q / (13 / 10 * E)) <= 1); [|lra].
  replace (f * (q / (13 / 10 * E))) with (f * q / (13 / 10 * E)) by (field; lra). apply Rmult_le_reg_r with (13 / 10 * E); [lra|].
  unfold Rdiv at 1. rewrite Rmult_assoc, Rinv_l by lra. lra.
Qed.
Print Assumptions C44_kox_nonneg.

(** continuous in the energy, also where its two branches meet (log10 E = 1.5) *)
Lemma glue f g a x : continuity_pt f x -> continuity_pt g x -> f a = g a -> continuity_pt (fun x => if Rlt_dec x a then f x else g x) x.
Proof.
  intros CF CG E eps He. destruct (CF eps He) as (df & Df & Hf). destruct (CG eps He) as (dg & Dg & Hg). cbn [dist R_met] in *.
  set (d := if Req_EM_T x a then 1 else Rabs (x - a)). assert (PD : 0 < d) by (unfold d; destruct (Req_EM_T x a); [lra|]; apply Rabs_pos_lt; lra).
  exists (Rmin (Rmin df dg) d). split; [repeat apply Rmin_glb_lt; assumption|]. intros y [Y1 Y2].
  assert (Q : R_dist y x < df /\ R_dist y x < dg /\ R_dist y x < d).
  { pose proof (Rmin_l (Rmin df dg) d). pose proof (Rmin_r (Rmin df dg) d). pose proof (Rmin_l df dg). pose proof (Rmin_r df dg). repeat split; lra. }
  destruct Q as (Q1 & Q2 & Q3). specialize (Hf y (conj Y1 Q1)). specialize (Hg y (conj Y1 Q2)). unfold R_dist, d in Q3.
  destruct (Rlt_dec y a) as [L|L]; destruct (Rlt_dec x a) as [M|M].
  - exact Hf.
  - destruct (Req_EM_T x a) as [->|NE]; [rewrite <- E; exact Hf|]. exfalso. rewrite Rabs_left in Q3 by lra. rewrite Rabs_right in Q3 by lra. lra.
  - exfalso. destruct (Req_EM_T x a) as [EQ|NE]; [lra|]. rewrite Rabs_right in Q3 by lra. rewrite Rabs_left in Q3 by lra. lra.
  - exact Hg.
Qed.
Lemma kox_c_cont x : x <> 0 -> continuity_pt kox_c x.
Proof.
  intros NZ. unfold kox_c. apply (glue (fun x => (2 - 10 / (3 / 2) ^ 5) * (x / (3 / 2)) ^ 3) (fun x => 2 - 10 / x ^ 5)).
  - apply continuity_pt_mult; [apply continuity_pt_const; intros ? ?; reflexivity|].
    apply derivable_continuous_pt. reg.
  - apply derivable_continuous_pt. reg. apply pow_nonzero. exact NZ.
  - cbn [pow]. field.
Qed.
Theorem C44_kox_continuous Ap Zp At Zt E : (1 <= Ap)%Z -> (1 <= At)%Z -> 1 < E -> continuity_pt (kox Ap Zp At Zt) E.
Proof.
  intros A T E1. assert (LN : 0 < ln E) by (rewrite <- ln_1; apply ln_increasing; lra). assert (L10 : 0 < ln 10) by (rewrite <- ln_1; apply ln_increasing; lra).
  assert (1 <= IZR Ap) by (apply IZR_le; lia). assert (1 <= IZR At) by (apply IZR_le; lia).
  assert (CL : continuity_pt (fun E => ln E / ln 10) E).
  { apply continuity_pt_div; [|apply continuity_pt_const; intros ? ?; reflexivity|lra]. apply derivable_continuous_pt. exists (/ E). apply derivable_pt_lim_ln. lra. }
  assert (CR : continuity_pt (fun E => kox_radius Ap Zp At Zt (ln E / ln 10)) E).
  { unfold kox_radius. apply continuity_pt_plus; [apply continuity_pt_const; intros ? ?; reflexivity|].
    apply continuity_pt_plus; [|apply continuity_pt_const; intros ? ?; reflexivity].
    apply continuity_pt_mult; [apply continuity_pt_const; intros ? ?; reflexivity|].
    apply continuity_pt_minus; [apply continuity_pt_const; intros ? ?; reflexivity|].
    apply (continuity_pt_comp (fun E => ln E / ln 10) kox_c); [exact CL|]. apply kox_c_cont. apply Rgt_not_eq, pos_quot; assumption. }
  unfold kox. set (rr := fun E => kox_radius Ap Zp At Zt (ln E / ln 10)) in *. set (b := barrier Ap Zp At Zt).
  apply continuity_pt_mult.
  - apply continuity_pt_mult; [apply continuity_pt_const; intros ? ?; reflexivity|].
    apply (continuity_pt_comp rr (fun x => x ^ 2)); [exact CR|]. apply derivable_continuous_pt. reg.
  - apply continuity_pt_minus; [apply continuity_pt_const; intros ? ?; reflexivity|].
    apply continuity_pt_div; [apply continuity_pt_const; intros ? ?; reflexivity| |].
    + apply derivable_continuous_pt. reg.
    + apply Rgt_not_eq. apply pos_quot; [repeat apply Rmult_lt_0_compat; lra|lra].
Qed.
Print Assumptions C44_kox_continuous.
Theorem C44_kox_model Ap Zp At Zt E : (1 <= Ap <= 1000)%Z -> (1 <= At <= 1000)%Z -> (0 <= Zp <= 1000)%Z -> (0 <= Zt <= 1000)%Z ->
  SigmaR_Kox (F:=R) Ap Zp E At Zt = Ok (kox Ap Zp At Zt E).
Proof. intros. now apply kox_value. Qed.
Print Assumptions C44_kox_model.

(** ** Survival in a layer *)
(** the mass number the code takes for a target element is that of a nucleus *)
Lemma first_isotope z : (1 <= z <= 109)%Z -> exists a, get_isotope_a z 0 = Ok a /\ nucleus a z.
Proof.
  intros B. destruct (isotope_lookup z 0 ltac:(lia)) as (E & _). change (Z.to_nat 0) with 0%nat in E. exists (fst (nth 0 (isotopes z) (0%Z, 0%dec))). split; [exact E|].
  pose proof (zforall (fun z => let a := fst (nth 0 (isotopes z) (0%Z, 0%dec)) in
    ((z <=? a) && (a <=? 298) && ((a <=? 243) || (100 * z <=? 87 * a)))%Z) 1 109 ltac:(vm_compute; reflexivity) z ltac:(lia)) as C. cbv beta zeta in C.
  apply andb_prop in C. destruct C as [C C3]. apply andb_prop in C. destruct C as [C1 C2]. apply orb_prop in C3.
  apply Z.leb_le in C1. apply Z.leb_le in C2. unfold nucleus. destruct C3 as [C3|C3]; apply Z.leb_le in C3; lia.
Qed.

Lemma mfrac_pos m t : 0 < m_M m -> 0 < tA t -> 0 < tstn t -> 0 < mfrac (F:=R) m t.
Proof.
  intros M A S. unfold mfrac. numR. destruct (Rltb _ _); [|exact S]. apply pos_quot; [apply Rmult_lt_0_compat; assumption|exact A].
Qed.

Lemma sigma_r_nonneg eo ap zp t x e s : nucleus ap zp -> solid t -> Forall (fun el => (tZ el <= 109)%Z) (m_atoms t) ->
  eo x = Ok e -> 30 <= e -> sigma_r (F:=R) eo ap zp t x = Ok s -> 0 <= s.
Proof.
  intros NP (NE & M & FA) FZ E0 E30. unfold sigma_r. rewrite E0. cbn [bind]. numR.
  intros S. destruct (ofold _ _ _) as [acc|] eqn:OF; cbn [bind] in S; [|discriminate]. revert S. numR. intros S.
  assert (SE : s = snd acc / fst acc) by congruence. rewrite SE. clear SE S.
  assert (G : forall l a0 a1, Forall (fun t => 0 < tA t /\ (1 <= tZ t)%Z /\ 0 < tstn t) l -> Forall (fun el => (tZ el <= 109)%Z) l -> 0 <= fst a0 -> 0 <= snd a0 ->
    ofold (fun (acc : R * R) (t0 : Target R) => at_ <- get_isotope_a (tZ t0) 0;; (let f := mfrac t t0 in k <- SigmaR_Kox ap zp e at_ (tZ t0);; Ok (fst acc + f, snd acc + f * k))) l a0 = Ok a1 ->
    (l = [] -> 0 < fst a0) -> 0 < fst a1 /\ 0 <= snd a1).
  { induction l as [|el l IH]; intros a0 a1 F1 F2 P0 P1 O Z0; cbn [ofold] in O.
    - injection O as <-. split; [apply Z0; reflexivity|exact P1].
    - inversion F1 as [|? ? (X1 & X2 & X3) F1']; subst. inversion F2 as [|? ? Y F2']; subst.
      destruct (first_isotope (tZ el) ltac:(lia)) as (at_ & IA & NA). rewrite IA in O. cbn [bind] in O.
      destruct (C44_kox_nonneg ap zp e at_ (tZ el) NP NA E30) as (k & K & K0). rewrite K in O. cbv zeta in O. cbn [bind] in O.
      pose proof (mfrac_pos t el M X1 X3) as MF.
      apply (IH _ _ F1' F2') in O; [exact O| | |]; cbn [fst snd]; [lra|apply Rplus_le_le_0_compat; [exact P1|apply Rmult_le_pos; lra]|intros _; lra]. }
  assert (R0 : 0 <= Rlit 0.0) by (dec_norm; lra).
  destruct (G _ (Rlit 0.0, Rlit 0.0) _ FA FZ R0 R0 OF ltac:(intros; contradiction)) as [A B].
  unfold Rdiv. apply Rmult_le_pos; [exact B|]. left. apply Rinv_0_lt_compat. exact A.
Qed.

Theorem C44_survival eo ap zp t r e1 : nucleus ap zp -> solid t -> Forall (fun el => (tZ el <= 109)%Z) (m_atoms t) -> 0 < m_th t ->
  eo (m_th t) = Ok e1 -> (forall x e, 0 <= x <= m_th t -> eo x = Ok e -> e1 <= e) ->
  nonreaction_core (F:=R) eo ap zp t = Ok r ->
  (e1 < 30 -> r = -1) /\ (30 <= e1 -> 0 < r <= 1).
Proof.
  intros NP SO FZ TH E1 MON R0. unfold nonreaction_core in R0. rewrite E1 in R0. cbn [bind] in R0. unfold emin_reaction in R0. revert R0. numR.
  replace (Rlit 30.0) with 30 by (dec_norm; lra). replace (Rlit (-1.0)) with (-1) by (dec_norm; lra). replace (Rlit 0) with 0 by (dec_norm; lra).
  destruct (Rltb_spec e1 30) as [L|L]; intros R0; [split; [intros _; congruence|lra]|]. split; [lra|]. intros _.
  assert (NN : forall x s, 0 <= x <= m_th t -> sigma_r (F:=R) eo ap zp t x = Ok s -> 0 <= s).
  { intros x s X S. destruct (eo x) as [e|] eqn:EX; [|unfold sigma_r in S; rewrite EX in S; discriminate]. pose proof (MON x e X EX). apply (sigma_r_nonneg eo ap zp t x e s); auto. lra. }
  destruct (sigma_r eo ap zp t 0) as [c0|] eqn:C0; cbn [bind] in R0; [|discriminate]. destruct (sigma_r eo ap zp t (m_th t)) as [c1|] eqn:C1; cbn [bind] in R0; [|discriminate].
  pose proof (NN 0 c0 ltac:(lra) C0) as P0. pose proof (NN (m_th t) c1 ltac:(lra) C1) as P1. destruct SO as (NE & M & FA).
  assert (AV : 0 < Avogadro (F:=R)) by (unfold Avogadro; numR; dec_norm; lra).
  assert (G : forall cs, 0 <= cs -> 0 < exp (- cs * Rlit 0.0001) <= 1).
  { intros cs CS. apply exp_le1. assert (R4 : Rlit 0.0001 = 1 / 10000) by (dec_norm; lra). rewrite R4. lra. }
  destruct (Rltb _ _); cbn [bind] in R0.
  - match type of R0 with Ok ?v = _ => assert (RE : r = v) by congruence end. rewrite RE. apply G. unfold number_density_cm2. numR.
    replace (Rlit 2.0) with 2 by (dec_norm; lra). apply Rmult_le_pos; [|lra]. apply Rmult_le_pos; [|lra]. left. apply pos_quot; [apply Rmult_lt_0_compat; lra|exact M].
  - destruct (integrate _ _ _) as [i|] eqn:I; cbn [bind] in R0; [|discriminate].
    match type of R0 with Ok ?v = _ => assert (RE : r = v) by congruence end. rewrite RE. apply G.
    apply Rmult_le_pos; [|left; apply Rinv_0_lt_compat; exact M]. apply Rmult_le_pos; [lra|].
    destruct C26_library as [IN LI]. rewrite LI in I. apply (quad_nonneg _ _ _ _ _ IN TH) with (2 := I). intros x u X U. apply (NN x); [lra|exact U].
Qed.
Print Assumptions C44_survival.

(** the public function: -1 below the reaction threshold, 1 without material, otherwise decided by the energy behind the layer *)
Theorem C44_nonreaction_rate junk p t c w r w' : nonreaction_rate (F:=R) junk p t c w = Ok (r, w') ->
  (pT p < 30 -> r = -1) /\ (30 <= pT p -> m_th t <= 0 -> r = 1) /\
  (30 <= pT p -> 0 < m_th t -> exists ap zp d, Rlround (pA p) = Some ap /\ Rlround (pZ p) = Some zp /\ lookup junk p t c w = Ok (d, w') /\
     nonreaction_core (energy_out_sp (dp_range_spline d) (pT p)) ap zp t = Ok r).
Proof.
  unfold nonreaction_rate, emin_reaction. numR. replace (Rlit 30.0) with 30 by (dec_norm; lra). replace (Rlit (-1.0)) with (-1) by (dec_norm; lra). replace (Rlit 0.0) with 0 by (dec_norm; lra).
  replace (Rlit 1.0) with 1 by (dec_norm; lra).
  destruct (Rltb_spec (pT p) 30) as [L|L]; intros E; [split; [intros _; congruence|split; intros; lra]|]. split; [lra|].
  destruct (Rleb_spec (m_th t) 0) as [L2|L2]; [split; [intros _ _; congruence|intros; lra]|]. split; [lra|]. intros _ _.
  unfold cast in E. destruct (Rlround (pA p)) as [ap|] eqn:A; cbn [bind] in E; [|discriminate]. destruct (Rlround (pZ p)) as [zp|] eqn:Z; cbn [bind] in E; [|discriminate].
  destruct (lookup junk p t c w) as [[d w1]|] eqn:LK; cbn [bind] in E; [|discriminate].
  destruct (nonreaction_core _ ap zp t) as [r1|] eqn:NC; cbn [bind] in E; [|discriminate]. injection E as <- <-. exists ap, zp, d. auto.
Qed.
Print Assumptions C44_nonreaction_rate.

(** ** C45: production rate *)
(** b(t) = integral over the depth x of the yield cs * exp(-a x) * exp(-b (t - x)), in the units of the code (mb) *)
Definition yield (cs a b t : R) : R := if Req_EM_T a b then 1 / 10000 * cs * t * exp (- (1 / 10000) * b * t)
  else cs * (exp (- (1 / 10000) * a * t) - exp (- (1 / 10000) * b * t)) / (b - a).
Definition thin (cs b t : R) : R := 1 / 10000 * cs * t * exp (- (1 / 10000) * b * t).

Lemma production_value cs a b m : production_rate (F:=R) cs a b m =
  if Rlt_dec (Rabs (b - a)) 5 then thin cs b (number_density_cm2 m) else yield cs a b (number_density_cm2 m).
Proof.
  unfold production_rate. cbv zeta. set (t := number_density_cm2 m). clearbody t. numR. replace (Rlit 5.0) with 5 by (dec_norm; lra).
  assert (R4 : Rlit 0.0001 = 1 / 10000) by (dec_norm; lra). assert (R5 : Rlit (-0.0001) = - (1 / 10000)) by (dec_norm; lra). rewrite R4, R5.
  destruct (Rltb_spec (Rabs (b - a)) 5) as [L|L], (Rlt_dec (Rabs (b - a)) 5) as [M|M]; try contradiction; [reflexivity|].
  unfold yield. destruct (Req_EM_T a b) as [->|N]; [|reflexivity]. exfalso. apply M. rewrite Rminus_diag_eq, Rabs_R0 by reflexivity. lra.
Qed.

(** the elementary fact: (e^x - 1) / x lies between 1 and e^x *)
Lemma expm1 x : x <= exp x - 1 <= x * exp x.
Proof.
  split; [pose proof (exp_ineq1_le x); lra|]. pose proof (exp_ineq1_le (- x)) as H. pose proof (exp_pos x) as P.
  assert (E : exp (- x) * exp x = 1) by (rewrite <- exp_plus; replace (- x + x) with 0 by ring; apply exp_0). nra.
Qed.
Lemma yield_ratio cs a b t : 0 <= cs -> 0 <= t -> a <> b -> let x := 1 / 10000 * (b - a) * t in
  exists q, yield cs a b t = thin cs b t * q /\ (0 <= x -> 1 <= q <= exp x) /\ (x <= 0 -> exp x <= q <= 1).
Proof.
  intros C T N x. unfold yield. destruct (Req_EM_T a b); [contradiction|].
  assert (EX : exp (- (1 / 10000) * a * t) = exp (- (1 / 10000) * b * t) * exp x) by (rewrite <- exp_plus; f_equal; unfold x; field).
  rewrite EX. unfold thin. pose proof (expm1 x) as [X1 X2]. destruct T as [T|<-].
  - assert (XN : x <> 0) by (unfold x; apply Rmult_integral_contrapositive_currified; [|lra]; apply Rmult_integral_contrapositive_currified; lra).
    exists ((exp x - 1) / x). split; [unfold x; field; lra|]. split; intros S.
    + assert (0 < x) by lra. split; [apply Rmult_le_reg_r with x; [lra|]; field_simplify; lra|]. apply Rmult_le_reg_r with x; [lra|]. unfold Rdiv. rewrite Rmult_assoc, Rinv_l by lra. lra.
    + assert (0 < - x) by lra. replace ((exp x - 1) / x) with ((1 - exp x) / (- x)) by (field; lra). split; apply Rmult_le_reg_r with (- x); try lra; unfold Rdiv; rewrite Rmult_assoc, Rinv_l by lra; lra.
  - exists 1. assert (X0 : x = 0) by (unfold x; lra). rewrite X0, exp_0. split; [field; lra|]. lra.
Qed.

Theorem C45_bounds cs a b m : 0 <= cs -> 0 <= a -> 0 <= b -> 0 <= number_density_cm2 (F:=R) m ->
  0 <= production_rate (F:=R) cs a b m <= 1 / 10000 * cs * number_density_cm2 (F:=R) m.
Proof.
  intros C A B T. rewrite production_value. set (t := number_density_cm2 m) in *. clearbody t.
  assert (CT : 0 <= 1 / 10000 * cs * t) by (apply Rmult_le_pos; [lra|exact T]).
  assert (BT : 0 <= b * t) by (apply Rmult_le_pos; assumption). assert (AT : 0 <= a * t) by (apply Rmult_le_pos; assumption).
  assert (EB : 0 < exp (- (1 / 10000) * b * t) <= 1) by (apply exp_le1; lra).
  assert (EA : 0 < exp (- (1 / 10000) * a * t) <= 1) by (apply exp_le1; lra).
  destruct (Rlt_dec (Rabs (b - a)) 5) as [L|L]; [unfold thin; nra|].
  assert (N : a <> b) by (intros ->; apply L; rewrite Rminus_diag_eq, Rabs_R0 by reflexivity; lra).
  destruct (yield_ratio cs a b t C T N) as (q & -> & Q1 & Q2). unfold thin. cbv zeta in *. set (x := 1 / 10000 * (b - a) * t) in *.
  assert (EX : exp (- (1 / 10000) * a * t) = exp (- (1 / 10000) * b * t) * exp x) by (rewrite <- exp_plus; f_equal; unfold x; field).
  set (eb := exp (- (1 / 10000) * b * t)) in *. pose proof (exp_pos x).
  assert (QQ : 0 <= q /\ eb * q <= 1) by (destruct (Rle_lt_dec 0 x) as [S|S]; [specialize (Q1 S)|specialize (Q2 (Rlt_le _ _ S))]; split; nra).
  destruct QQ as [QA QB]. assert (0 <= eb * q) by (apply Rmult_le_pos; lra). rewrite Rmult_assoc. split; [apply Rmult_le_pos; lra|]. nra.
Qed.
Print Assumptions C45_bounds.

(** where the code replaces the exact yield by the thin-target one the two differ by at most e^{|x|} - 1 with |x| <= 0.0005 t *)
Theorem C45_thin_error cs a b m : 0 <= cs -> 0 <= number_density_cm2 (F:=R) m -> Rabs (b - a) < 5 ->
  Rabs (yield cs a b (number_density_cm2 m) - production_rate (F:=R) cs a b m) <= production_rate (F:=R) cs a b m * (exp (5 / 10000 * number_density_cm2 (F:=R) m) - 1).
Proof.
  intros C T D. rewrite production_value. destruct (Rlt_dec _ _) as [_|K]; [|contradiction]. set (t := number_density_cm2 m) in *. clearbody t.
  assert (TH : 0 <= thin cs b t) by (unfold thin; apply Rmult_le_pos; [apply Rmult_le_pos; lra|left; apply exp_pos]).
  assert (M1 : 0 <= exp (5 / 10000 * t) - 1) by (pose proof (exp_ineq1_le (5 / 10000 * t)); lra).
  destruct (Req_EM_T a b) as [E|N].
  - unfold yield. destruct (Req_EM_T a b); [|contradiction]. fold (thin cs b t). rewrite Rminus_diag_eq, Rabs_R0 by reflexivity. apply Rmult_le_pos; assumption.
  - destruct (yield_ratio cs a b t C T N) as (q & -> & Q1 & Q2). cbv zeta in *. set (x := 1 / 10000 * (b - a) * t) in *.
    apply Rabs_def2 in D. assert (XB : - (5 / 10000 * t) <= x <= 5 / 10000 * t) by (unfold x; split; nra).
    replace (thin cs b t * q - thin cs b t) with (thin cs b t * (q - 1)) by ring. rewrite Rabs_mult, (Rabs_right (thin cs b t)) by lra.
    apply Rmult_le_compat_l; [exact TH|].
    assert (MON : forall u v, u <= v -> exp u <= exp v) by (intros u v [L| ->]; [left; now apply exp_increasing|lra]).
    destruct (Rle_lt_dec 0 x) as [S|S].
    + specialize (Q1 S). rewrite Rabs_right by lra. pose proof (MON x (5 / 10000 * t) ltac:(lra)). lra.
    + specialize (Q2 (Rlt_le _ _ S)). rewrite Rabs_left1 by lra. pose proof (exp_ineq1_le x). pose proof (exp_ineq1_le (5 / 10000 * t)). lra.
Qed.
Print Assumptions C45_thin_error.
Lemma lin_der c t : derivable_pt_lim (fun t => c * t) t c.
Proof. pose proof (derivable_pt_lim_scal id c t 1 (derivable_pt_lim_id t)) as D. rewrite Rmult_1_r in D. exact D. Qed.
Lemma exp_der c t : derivable_pt_lim (fun t => exp (c * t)) t (exp (c * t) * c).
Proof. exact (derivable_pt_lim_comp (fun t => c * t) exp t c _ (lin_der c t) (derivable_pt_lim_exp (c * t))). Qed.
(** the exact yield solves the production-and-loss balance: dY/dt = cs e^{-a t} - b Y, Y(0) = 0 *)
Theorem C45_balance cs a b t : let k := 1 / 10000 in yield cs a b 0 = 0 /\ derivable_pt_lim (yield cs a b) t (k * cs * exp (- k * a * t) - k * b * yield cs a b t).
Proof.
  intros k. unfold yield. fold k. destruct (Req_EM_T a b) as [->|N].
  - split; [ring|].
    pose proof (derivable_pt_lim_mult _ _ t _ _ (lin_der (k * cs) t) (exp_der (- k * b) t)) as D.
    replace (k * cs * exp (- k * b * t) - k * b * (k * cs * t * exp (- k * b * t))) with (k * cs * exp (- k * b * t) + k * cs * t * (exp (- k * b * t) * (- k * b))) by ring. exact D.
  - split; [rewrite !Rmult_0_r, exp_0; field; lra|].
    assert (DE : forall c, derivable_pt_lim (fun t => exp (- k * c * t)) t (exp (- k * c * t) * (- k * c * 1))).
    { intros c. rewrite Rmult_1_r. apply exp_der. }
    assert (D : derivable_pt_lim (fun t => (/ (b - a)) * (cs * (exp (- k * a * t) - exp (- k * b * t)))) t ((/ (b - a)) * (cs * (exp (- k * a * t) * (- k * a * 1) - exp (- k * b * t) * (- k * b * 1))))).
    { exact (derivable_pt_lim_scal _ _ t _ (derivable_pt_lim_scal _ cs t _ (derivable_pt_lim_minus _ _ t _ _ (DE a) (DE b)))). }
    replace (k * cs * exp (- k * a * t) - k * b * (cs * (exp (- k * a * t) - exp (- k * b * t)) / (b - a))) with ((/ (b - a)) * (cs * (exp (- k * a * t) * (- k * a * 1) - exp (- k * b * t) * (- k * b * 1)))) by (field; lra).
    intros eps HE. destruct (D eps HE) as (d & H). exists d. intros h H0 H1. specialize (H h H0 H1). unfold Rdiv in *.
    rewrite (Rmult_comm (cs * (exp (- k * a * (t + h)) - exp (- k * b * (t + h)))) (/ (b - a))), (Rmult_comm (cs * (exp (- k * a * t) - exp (- k * b * t))) (/ (b - a))). exact H.
Qed.
Print Assumptions C45_balance.

(** ** Concrete cases *)
Example C44_case : nucleus 12 6 /\ nucleus 238 92 /\ nucleus 1 1 /\
  (exists s, SigmaR_Kox (F:=R) 238 92 300 12 6 = Ok s /\ 0 <= s) /\
  (exists r, nonreaction_core (fun x => Ok (300 - 10 * x)) 12 6 (water 2) = Ok r /\ 0 < r <= 1) /\
  nonreaction_core (fun x => Ok (40 - 10 * x)) 12 6 (water 2) = Ok (-1).
Proof.
  assert (N1 : nucleus 12 6) by (unfold nucleus; lia). assert (N2 : nucleus 238 92) by (unfold nucleus; lia). split; [exact N1|]. split; [exact N2|]. split; [unfold nucleus; lia|].
  split; [apply C44_kox_nonneg; auto; lra|].
  assert (TH : m_th (water 2) = 2) by reflexivity.
  assert (D : forall eo, (forall x, defined (eo x)) -> exists r, nonreaction_core eo 12 6 (water 2) = Ok r) by (intros eo H; apply nonreaction_core_ok; auto; [lia|lia|apply water_legit]).
  assert (SO : solid (water 2)) by (split; [discriminate|]; split; [|repeat (apply Forall_cons; [cbn; split; [|split; [lia|]]; dec_norm; lra|]); apply Forall_nil]; cbn; dec_norm; lra).
  assert (FZ : Forall (fun el => (tZ el <= 109)%Z) (m_atoms (water 2))) by (repeat (apply Forall_cons; [cbn; lia|]); apply Forall_nil).
  split.
  - destruct (D (fun x => Ok (300 - 10 * x))) as [r R]; [intros x; eexists; reflexivity|]. exists r. split; [exact R|].
    apply (C44_survival _ _ _ _ _ (300 - 10 * 2) N1 SO FZ ltac:(rewrite TH; lra) eq_refl) with (2 := R); [|lra]. rewrite TH. intros x e X E. injection E as <-. lra.
  - destruct (D (fun x => Ok (40 - 10 * x))) as [r R]; [intros x; eexists; reflexivity|]. rewrite R. f_equal.
    apply (C44_survival _ _ _ _ _ (40 - 10 * 2) N1 SO FZ ltac:(rewrite TH; lra) eq_refl) with (2 := R); [|lra]. rewrite TH. intros x e X E. injection E as <-. lra.
Qed.

(** 200 mb of a product whose reaction cross section is 1000 mb above the projectile's, in 2 g/cm2 of water *)
Example C45_case : 0 < number_density_cm2 (F:=R) (water 2) /\ ~ Rabs (2500 - 1500) < 5 /\ Rabs (1503 - 1500) < 5 /\
  0 < production_rate (F:=R) 200 1500 2500 (water 2) < 1 / 10000 * 200 * number_density_cm2 (F:=R) (water 2).
Proof.
  assert (P : 0 < number_density_cm2 (F:=R) (water 2)) by (unfold number_density_cm2, Avogadro; cbn; dec_norm; lra).
  split; [exact P|]. split; [rewrite Rabs_right; lra|]. split; [rewrite Rabs_right; lra|]. rewrite production_value.
  destruct (Rlt_dec _ _) as [L|_]; [rewrite Rabs_right in L; lra|]. set (t := number_density_cm2 (water 2)) in *. clearbody t.
  destruct (yield_ratio 200 1500 2500 t) as (q & -> & Q & _); try lra. cbv zeta in Q. specialize (Q ltac:(nra)). unfold thin. set (x := 1 / 10000 * (2500 - 1500) * t) in *.
  assert (EX : exp (- (1 / 10000) * 2500 * t) * exp x < 1).
  { rewrite <- exp_plus. apply Rlt_le_trans with (exp 0); [|rewrite exp_0; lra]. apply exp_increasing. unfold x. lra. }
  set (eb := exp (- (1 / 10000) * 2500 * t)) in *. assert (0 < eb) by apply exp_pos.
  assert (0 < eb * q) by (apply Rmult_lt_0_compat; lra). assert (eb * q < 1) by nra. rewrite Rmult_assoc. split; [apply Rmult_lt_0_compat; lra|nra].
Qed.
