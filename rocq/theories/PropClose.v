(** * C69: the stopping power read off the range spline and the stopping power it was made from *)
From Coq Require Import ZArith Reals List Bool Lra Lia.
From Verif Require Import Num NumR Structures DataQuadrature EnergyTable Spline Integrator Calculations Storage Catima CacheProofs CacheFresh History KeyEq ApiCache
  EnergyOutProofs GridProofs QuadProofs TotalProofs ApiTotal LayerProofs PropGrid PropSpline PropQuad PropTables PropCache PropEnergyOut PropLayers PropResult PropApi PropMono PropMonoApi PropMonoOut Cases BoundsProofs PropDedx ProtonStopping PropMonoProton SplineClose.
From Verif Require PropMonoProtonOut.
Import ListNotations.
Local Open Scope R_scope.

(** ** The derivative of a spline and the chords of its data *)
(** data that increase, with neighbouring chords that differ by at most the fraction g of the flatter one *)
Definition even (g : R) (t : EnergyTable R) (y : list R) : Prop :=
  (forall i, (S i < et_n t)%nat -> 0 < chord_slope t y i) /\
  (forall i, (S (S i) < et_n t)%nat -> chord_slope t y (S i) <= (1 + g) * chord_slope t y i /\ chord_slope t y i <= (1 + g) * chord_slope t y (S i)).
(** how far the derivative may be from the chord, as a fraction of the chord *)
Definition spread (g : R) : R := if Rle_dec g (1 / 10) then 1.99 * g else 2.79 * g.
Lemma spread_bend g : 0 <= g <= 3 / 10 -> 1021 / 1000 * bend g <= spread g.
Proof. intros G. destruct (bend_simple g G) as [A B]. unfold spread. destruct (Rle_dec g (1 / 10)) as [L|L]; [specialize (B L)|]; lra. Qed.

Theorem C69_derivative n lmin lmax y junk s g x : (3 <= n)%nat -> (Z.of_nat n < 2147483648)%Z -> lmin < lmax -> fine (et_make n lmin lmax) ->
  Rabs (fst junk) < 2 -> Rabs (snd junk) < 2 -> make_spline (et_make n lmin lmax) y junk = Ok s -> 0 <= g <= 3 / 10 -> even g (et_make n lmin lmax) y ->
  exists d i, spline_deriv s x = Ok d /\ (S i < n)%nat /\
    (i <> 0%nat -> gval n lmin lmax (INR i) - numeric_epsilon <= x) /\ (S i <> (n - 1)%nat -> x <= gval n lmin lmax (INR (S i))) /\
    Rabs (d - chord_slope (et_make n lmin lmax) y i) <= spread g * chord_slope (et_make n lmin lmax) y i.
Proof.
  intros N3 NM LIM FI J0 J1 M GR [E0 E1]. rewrite et_n_R in E0, E1.
  destruct (close_derivative n lmin lmax N3 NM LIM FI y junk s J0 J1 M g GR ltac:(intros i I; apply E0; lia) ltac:(intros i I; apply E1; lia) x) as (d & i & D & I & A & B & P & C).
  exists d, i. split; [exact D|]. split; [exact I|]. split; [exact A|]. split; [exact B|]. eapply Rle_trans; [exact C|]. apply Rmult_le_compat_r; [lra|]. apply spread_bend; exact GR.
Qed.
Print Assumptions C69_derivative.

(** ** The table of ranges *)
(** the stopping power is positive and changes by at most the fraction g where the energy changes by at most 4 percent *)
Definition varies_by (g : R) (p : Projectile R) (t : Material R) (c : Config R) : Prop :=
  (forall x d, energy 0 < x < energy 599 -> dedx (at_T p x) t c = Ok d -> 0 < d) /\
  (forall x z d e, energy 0 < x -> x < z -> z <= 1.04 * x -> z < energy 599 -> dedx (at_T p x) t c = Ok d -> dedx (at_T p z) t c = Ok e -> e <= (1 + g) * d /\ d <= (1 + g) * e).
Lemma inv_by g a b : 0 < a -> 0 < b -> a <= (1 + g) * b -> / b <= (1 + g) * / a.
Proof.
  intros A B H. apply (Rmult_le_reg_r b); [exact B|]. apply (Rmult_le_reg_l a); [exact A|]. replace (a * (/ b * b)) with a by (field; lra). replace (a * ((1 + g) * / a * b)) with ((1 + g) * b) by (field; lra). exact H.
Qed.
(** the rule of order 8 on a constant *)
Lemma rule_const : exists W, 1 - / 10 ^ 20 <= W <= 1 + / 10 ^ 20 /\ forall k a b, quad (8%nat, GL8_x, GL8_w) (fun _ => Ok k) a b = Ok (k * W * (b - a)).
Proof.
  destruct C26_library as [IN _].
  destruct (C26_exact 8 GL8_x GL8_w (fun _ => 1) (fun x => x) (-1) 1 [1] IN ltac:(lra) ltac:(cbn; lia)) as (I & E & B); [intros t; cbn; ring|intros x _; apply derivable_pt_lim_id|].
  exists (I / 2). split.
  - cbn [size map fold_right] in B. apply abs_in in B. rewrite ?Rabs_R1 in B. lra.
  - intros k a b. pose proof (quad_scale _ _ _ _ _ _ _ k IN E) as E2. cbn [bind] in E2. rewrite Rmult_1_r in E2. rewrite (C26_affine _ (fun _ => Ok k) a b (k * I) IN E2). f_equal. field.
Qed.
Definition varies_upto (g : R) (N : nat) (f : R -> outcome R) : Prop :=
  (forall x u, energy 0 < x < energy N -> f x = Ok u -> 0 < u) /\
  (forall x z u v, energy 0 < x -> x < z -> z <= 1.04 * x -> z < energy N -> f x = Ok u -> f z = Ok v -> v <= (1 + g) * u /\ u <= (1 + g) * v).
Lemma even_chords g N A f l : 0 <= g -> (N < 600)%nat -> table (scaled_integral A f) (et_values (energy_table (F:=R))) = Ok l -> 0 < A -> varies_upto g N f ->
  (forall i, (i < N)%nat -> 0 < chord_slope energy_table l i) /\
  (forall i, (S i < N)%nat -> chord_slope energy_table l (S i) <= (1 + g) * chord_slope energy_table l i /\ chord_slope energy_table l i <= (1 + g) * chord_slope energy_table l (S i)).
Proof.
  intros GP NN HT A0 [SP SL]. apply scaled_nth in HT. destruct HT as (_ & _ & ND). destruct C26_library as [IN LIB].
  assert (POS : forall i, (i < N)%nat -> exists r, quad (8%nat, GL8_x, GL8_w) f (energy i) (energy (S i)) = Ok r /\ nth (S i) l 0 - nth i l 0 = A * r /\ 0 < r).
  { intros i IN0. assert (I : (S i < 600)%nat) by lia. destruct (ND i I) as (r & E & D). rewrite LIB in E. exists r. split; [exact E|]. split; [exact D|].
    refine (C26_positive _ _ _ _ _ IN (energy_incr i I) _ E). intros x u X U. apply (SP x u); [|exact U]. pose proof (energy_le 0 i ltac:(lia) ltac:(lia)). pose proof (energy_le (S i) N ltac:(lia) ltac:(lia)). lra. }
  assert (SLOPE : forall i r, nth (S i) l 0 - nth i l 0 = A * r -> chord_slope energy_table l i = A * r / (energy (S i) - energy i)).
  { intros i r D. unfold chord_slope. rewrite D. reflexivity. }
  split.
  - intros i I. destruct (POS i I) as (r & _ & D & P). rewrite (SLOPE i r D). pose proof (energy_incr i ltac:(lia)). apply Rdiv_lt_0_compat; [apply Rmult_lt_0_compat; assumption|lra].
  - intros i I. destruct (POS i ltac:(lia)) as (r & E & D & P). destruct (POS (S i) I) as (r' & E' & D' & P'). rewrite (SLOPE i r D), (SLOPE (S i) r' D'). clear POS SLOPE ND D D'.
    pose proof (energy_incr i ltac:(lia)) as L1. pose proof (energy_incr (S i) ltac:(lia)) as L2. pose proof (energy_pos 0 ltac:(lia)) as P0. pose proof (energy_incr 0 ltac:(lia)) as L0. pose proof (energy_step 0 ltac:(lia)) as ST.
    pose proof (energy_le 0 i ltac:(lia) ltac:(lia)) as B0. pose proof (energy_le (S (S i)) N ltac:(lia) ltac:(lia)) as B1.
    rewrite (energy_ratio (S i) ltac:(lia)), (energy_ratio i ltac:(lia)) in *. set (q := energy 1 / energy 0) in *.
    assert (Q1 : 1 < q) by (apply (Rmult_lt_reg_r (energy 0)); [exact P0|]; unfold q; replace (energy 1 / energy 0 * energy 0) with (energy 1) by (field; lra); lra).
    assert (Q2 : q <= 1.04) by (apply (Rmult_le_reg_r (energy 0)); [exact P0|]; unfold q; replace (energy 1 / energy 0 * energy 0) with (energy 1) by (field; lra); lra).
    set (a := energy i) in *. assert (AP : 0 < a) by lra. clearbody a q.
    replace (q * (q * a)) with (q * (q * a)) in E' by ring. destruct (quad_dilate 8 GL8_x GL8_w f q a (q * a) r' IN E') as (J & EJ & ->).
    replace (q * (q * a) - q * a) with (q * (q * a - a)) by ring. replace (A * (q * J) / (q * (q * a - a))) with (A / (q * a - a) * J) by (field; split; lra).
    replace (A * r / (q * a - a)) with (A / (q * a - a) * r) by (field; lra).
    assert (K : 0 < A / (q * a - a)) by (apply Rdiv_lt_0_compat; lra). set (k := A / (q * a - a)) in *. clearbody k.
    assert (NEAR : forall x u v, a < x < q * a -> f x = Ok u -> f (q * x) = Ok v -> v <= (1 + g) * u /\ u <= (1 + g) * v).
    { intros x u v X U V. assert (X0 : 0 < x) by lra. assert (x < q * x) by (assert (0 < (q - 1) * x) by (apply Rmult_lt_0_compat; lra); lra). assert (q * x <= 1.04 * x) by (apply Rmult_le_compat_r; lra).
      assert (q * x < q * (q * a)) by (apply Rmult_lt_compat_l; lra). apply (SL x (q * x) u v); try assumption; lra. }
    assert (J1 : J <= (1 + g) * r).
    { refine (C26_monotone _ _ _ _ _ _ _ IN (Rlt_le _ _ L1) _ EJ (quad_scale _ _ _ _ _ _ _ (1 + g) IN E)). intros x u v X U V. cbn beta in U. destruct (f x) as [w|] eqn:W; cbn [bind] in V; [|discriminate]. injection V as <-. apply (NEAR x w u X W U). }
    assert (J2 : r <= (1 + g) * J).
    { refine (C26_monotone _ _ _ _ _ _ _ IN (Rlt_le _ _ L1) _ E (quad_scale _ _ _ _ _ _ _ (1 + g) IN EJ)). intros x u v X U V. destruct (f (q * x)) as [w|] eqn:W; cbn [bind] in V; [|discriminate]. injection V as <-. apply (NEAR x u w X U W). }
    apply (Rmult_le_compat_l k) in J1, J2; lra.
Qed.

(** a chord is A times a mean of the density *)
Lemma chord_mean A f l i lo hi : table (scaled_integral A f) (et_values (energy_table (F:=R))) = Ok l -> 0 < A -> (S i < 600)%nat ->
  (forall x u, energy i < x < energy (S i) -> f x = Ok u -> lo <= u <= hi) ->
  exists W, 1 - / 10 ^ 20 <= W <= 1 + / 10 ^ 20 /\ A * (lo * W) <= chord_slope energy_table l i <= A * (hi * W).
Proof.
  intros HT A0 I B. destruct rule_const as (W & WB & CONST). exists W. split; [exact WB|]. destruct C26_library as [IN LIB]. pose proof (scaled_nth A f l HT) as (_ & _ & ND). destruct (ND i I) as (r & E & D). rewrite LIB in E.
  pose proof (energy_incr i I) as EI. assert (SL : chord_slope energy_table l i = A * (r / (energy (S i) - energy i))) by (unfold chord_slope; rewrite D; fold (energy (S i)) (energy i); field; lra). rewrite SL.
  assert (LO : lo * W * (energy (S i) - energy i) <= r) by (refine (C26_monotone _ _ _ _ _ _ _ IN (Rlt_le _ _ EI) _ (CONST lo _ _) E); intros x u v X Q V; injection Q as <-; apply (B x v X V)).
  assert (HI : r <= hi * W * (energy (S i) - energy i)) by (refine (C26_monotone _ _ _ _ _ _ _ IN (Rlt_le _ _ EI) _ E (CONST hi _ _)); intros x u v X V Q; injection Q as <-; apply (B x u X V)).
  split; apply Rmult_le_compat_l; try lra; apply (Rmult_le_reg_r (energy (S i) - energy i)); try lra; replace (r / (energy (S i) - energy i) * (energy (S i) - energy i)) with r by (field; lra); assumption.
Qed.
Lemma varies_inverse g p t c : 0 <= g -> varies_by g p t c -> varies_upto g 599 (fdedx p t c).
Proof.
  intros GP [SP SL]. unfold fdedx. split.
  - intros x u X U. destruct (dedx (at_T p x) t c) as [d|] eqn:D; cbn [bind] in U; [|discriminate]. revert U. numR. replace (Rlit 1.0) with 1 by (dec_norm; lra). intros U. injection U as <-.
    apply Rdiv_lt_0_compat; [lra|]. exact (SP x d X D).
  - intros x z u v X0 XZ Z1 Z0 U V. destruct (dedx (at_T p x) t c) as [d|] eqn:D; cbn [bind] in U; [|discriminate]. destruct (dedx (at_T p z) t c) as [e|] eqn:E; cbn [bind] in V; [|discriminate].
    revert U V. numR. replace (Rlit 1.0) with 1 by (dec_norm; lra). intros U V. injection U as <-. injection V as <-. destruct (SL x z d e X0 XZ Z1 Z0 D E) as [S1 S2].
    assert (0 < d) by (apply (SP x d); [lra|exact D]). assert (0 < e) by (apply (SP z e); [lra|exact E]). unfold Rdiv. rewrite !Rmult_1_l. split; apply inv_by; assumption.
Qed.
(** the ranges of an ion whose stopping power varies by g *)
Theorem C69_table p t c rt g : range_table p t c = Ok rt -> 0 < pA p -> 0 <= g -> varies_by g p t c -> even g energy_table rt.
Proof.
  intros HT A GP V. destruct (even_chords g 599 (pA p) (fdedx p t c) rt GP ltac:(lia) HT A (varies_inverse g p t c GP V)) as [C1 C2]. unfold even. change (et_n energy_table) with 600%nat. split; intros i I; [apply C1; lia|apply C2; lia].
Qed.
Print Assumptions C69_table.

Lemma fine_step i : (S i < 600)%nat -> energy (S i) <= 1.03998 * energy i.
Proof.
  intros I. rewrite (energy_ratio i I). pose proof (energy_pos i ltac:(lia)) as P. apply Rmult_le_compat_r; [lra|]. pose proof (energy_pos 0 ltac:(lia)) as P0.
  rewrite !energy_G by lia. pose proof (gval_ratio 600 (-3) 7 (INR 0)) as Q. replace (INR 1) with (INR 0 + 1) by (cbn; ring). rewrite Q.
  assert (L : LN10_ (F:=R) * gstep 600 (-3) 7 <= 384407 / 10000000). { unfold LN10_, gstep. numR. replace (INR 600) with 600 by (rewrite INR_IZR_INZ; reflexivity). dec_norm. lra. }
  set (l := LN10_ * gstep 600 (-3) 7) in *. pose proof (exp_ineq1_le (- l)) as X. pose proof (exp_pos l) as EP. assert (EE : exp (- l) * exp l = 1) by (rewrite <- exp_plus, Rplus_opp_l; apply exp_0).
  assert ((1 - 384407 / 10000000) * exp l <= exp (- l) * exp l) by (apply Rmult_le_compat_r; lra). lra.
Qed.
(** ** After any calls: the stopping power read off the range spline *)
(** the allowance for a stopping power that varies by g *)
Definition allowance (g : R) : R := if Rle_dec g (1 / 10) then 2 * g else 2.8 * g.
(** d, read off the spline, and e, the stopping power itself *)
Definition agree (g d e : R) : Prop := (1 - allowance g) * d <= (1 + g) * e /\ e <= (1 + allowance g) * (1 + g) * d.
Lemma spread_allowance g W : 1 / 10 ^ 6 <= g <= 3 / 10 -> 1 - / 10 ^ 20 <= W <= 1 + / 10 ^ 20 -> 0 <= spread g < 1 /\ (1 - allowance g) <= (1 - spread g) * W /\ (1 + spread g) * W <= 1 + allowance g.
Proof.
  intros G WB. assert (S1 : 0 <= spread g <= 84 / 100 /\ spread g + g / 100 <= allowance g) by (unfold spread, allowance; destruct (Rle_dec g (1 / 10)); lra). destruct S1 as [S1 S2]. split; [lra|].
  assert (T1 : (1 - spread g) * (1 - / 10 ^ 20) <= (1 - spread g) * W) by (apply Rmult_le_compat_l; lra). assert (T2 : (1 + spread g) * W <= (1 + spread g) * (1 + / 10 ^ 20)) by (apply Rmult_le_compat_l; lra). split; lra.
Qed.
Theorem C69_dedx_from_range junk h w p t c g d e w' : small_junk junk -> exec_all junk h world0 = Ok w -> legit_p p -> 1 / 10 ^ 6 <= g <= 3 / 10 -> varies_by g p t c ->
  energy 0 < pT p < energy 599 -> dedx p t c = Ok e -> dedx_from_range junk p t c w = Ok (d, w') -> agree g d e.
Proof.
  intros SJ EH LP G V TB DE H. unfold dedx_from_range in H. apply bind_ok in H. destruct H as ([dp w1] & L & H). apply bind_ok in H. destruct H as (r & D & H).
  apply ok_inj in H. apply pair_equal_spec in H. destruct H as [<- _]. assert (A0 : 0 < pA p) by apply LP. assert (G0 : 0 <= g) by lra.
  destruct (lookup_splines junk h w EH p t c LP dp w1 L) as (RT & _ & k & s & _ & _ & M & ES & _). rewrite ES in D. cbn [interp_deriv] in D. destruct (SJ k) as [J0 J1].
  pose proof (C69_table p t c _ g RT A0 G0 V) as EV. rewrite energy_table_eq in M, EV.
  destruct (C69_derivative 600 (-3) 7 _ _ s g (pT p) ltac:(lia) ltac:(lia) ltac:(lra) library_fine J0 J1 M ltac:(lra) EV) as (dd & i & D2 & I & LO & HI & B). assert (dd = r) by congruence. subst dd. clear D2.
  rewrite <- !energy_G in LO, HI by lia. set (T := pT p) in *.
  assert (LO' : energy i - numeric_epsilon <= T) by (destruct (Nat.eq_dec i 0) as [->|NE]; [pose proof eps_pos; lra|apply LO; exact NE]).
  assert (HI' : T <= energy (S i)) by (destruct (Nat.eq_dec (S i) 599) as [->|NE]; [lra|apply HI; exact NE]). clear LO HI.
  destruct EV as [EP _]. specialize (EP i I). rewrite <- energy_table_eq in B, EP.
  destruct (varies_inverse g p t c G0 V) as [VP VL]. assert (FT : fdedx p t c T = Ok (/ e)). { unfold fdedx, T. rewrite same_p, DE. cbn [bind]. numR. replace (Rlit 1.0) with 1 by (dec_norm; lra). f_equal. unfold Rdiv. ring. }
  pose proof (VP T (/ e) TB FT) as IP. assert (E0 : 0 < e) by (destruct V as [V _]; apply (V T e TB); unfold T; rewrite same_p; exact DE).
  pose proof (fine_step i I) as FS. pose proof (energy_pos i ltac:(lia)) as PI. pose proof eps_small as ESM. pose proof (energy_le 0 i ltac:(lia) ltac:(lia)) as L0. pose proof (energy_le (S i) 599 ltac:(lia) ltac:(lia)) as L1.
  assert (PI2 : 1 / 10000 < energy i). { assert (SP : 1 / 100000 < energy (S i) - energy i) by (rewrite !energy_G by lia; apply (library_spacing i); rewrite energy_table_eq; apply at_gval; lia). lra. }
  assert (BD : forall x u, energy i < x < energy (S i) -> fdedx p t c x = Ok u -> / e * / (1 + g) <= u <= (1 + g) * / e).
  { intros x u X U. assert (UP : 0 < u) by (apply (VP x u); [lra|exact U]).
    assert (N : u <= (1 + g) * / e /\ / e <= (1 + g) * u).
    { destruct (Rtotal_order x T) as [Q|[Q|Q]].
      - destruct (VL x T u (/ e)) as [N1 N2]; try assumption; lra.
      - subst x. assert (u = / e) by congruence. subst u. assert (0 <= g * / e) by (apply Rmult_le_pos; lra). lra.
      - destruct (VL T x (/ e) u) as [N1 N2]; try assumption; lra. }
    split; [|apply N]. apply (Rmult_le_reg_r (1 + g)); [lra|]. rewrite Rmult_assoc, Rinv_l by lra. lra. }
  destruct (chord_mean (pA p) (fdedx p t c) _ i _ _ RT A0 I BD) as (W & WB & C1 & C2). set (ch := chord_slope energy_table (dp_range dp) i) in *. clearbody ch.
  destruct (spread_allowance g W G WB) as (S1 & S2 & S3). apply abs_in in B. clear - B C1 C2 S1 S2 S3 A0 E0 G0 EP.
  assert (R0 : 0 < r) by (assert (0 < (1 - spread g) * ch) by (apply Rmult_lt_0_compat; lra); lra). unfold agree. numR. set (sp := spread g) in *. set (al := allowance g) in *. clearbody sp al. split.
  - apply (Rmult_le_reg_r r); [exact R0|]. replace ((1 - al) * (pA p / r) * r) with ((1 - al) * pA p) by (field; lra).
    apply Rle_trans with ((1 - sp) * W * pA p); [apply Rmult_le_compat_r; lra|]. apply Rle_trans with ((1 + g) * e * ((1 - sp) * ch)); [|apply Rmult_le_compat_l; [apply Rmult_le_pos; lra|lra]].
    replace ((1 - sp) * W * pA p) with ((1 + g) * e * ((1 - sp) * (pA p * (/ e * / (1 + g) * W)))) by (field; lra). apply Rmult_le_compat_l; [apply Rmult_le_pos; lra|]. apply Rmult_le_compat_l; lra.
  - apply (Rmult_le_reg_r r); [exact R0|]. replace ((1 + al) * (1 + g) * (pA p / r) * r) with ((1 + g) * pA p * (1 + al)) by (field; lra).
    apply Rle_trans with ((1 + g) * pA p * ((1 + sp) * W)); [|apply Rmult_le_compat_l; [apply Rmult_le_pos; lra|lra]]. apply Rle_trans with (e * ((1 + sp) * ch)); [apply Rmult_le_compat_l; lra|].
    replace ((1 + g) * pA p * ((1 + sp) * W)) with (e * ((1 + sp) * (pA p * ((1 + g) * / e * W)))) by (field; lra). apply Rmult_le_compat_l; [lra|]. apply Rmult_le_compat_l; lra.
Qed.
Print Assumptions C69_dedx_from_range.
(** the fields dEdxi and dEdxo of the result of calculate: the stopping powers at the entrance and at the exit *)
Theorem C69_calculate junk h w p t c g r w' : small_junk junk -> exec_all junk h world0 = Ok w -> legit_p p -> 1 / 10 ^ 6 <= g <= 3 / 10 -> varies_by g p t c ->
  1 / 1000 <= pT p -> energy 0 < pT p < energy 599 -> calculate junk p t c w = Ok (r, w') ->
  (forall e, dedx p t c = Ok e -> agree g (r_dEdxi r) e) /\
  (forall e, m_th t <> 0 -> 1 / 1000 <= r_Eout r -> energy 0 < r_Eout r < energy 599 -> dedx (at_T p (r_Eout r)) t c = Ok e -> agree g (r_dEdxo r) e).
Proof.
  intros SJ EH LP G V T0 TB H. pose proof (exec_all_wf junk h w EH) as W. split.
  - intros e DE. destruct (C12_agrees junk p t c w r w' H) as (w1 & _ & D & _); [apply not_low; lra|]. exact (C69_dedx_from_range junk h w p t c g _ e w1 SJ EH LP G V TB DE D).
  - intros e TH E0 EB DE. destruct (C61_energy_straggling junk p t c w r w' W ltac:(lra) TH H E0) as (D & _).
    assert (EH' : exec_all junk (h ++ [CCalculate p t c]) world0 = Ok w') by (eapply exec_all_snoc; [exact EH|]; unfold exec; rewrite H; reflexivity).
    exact (C69_dedx_from_range junk _ w' (at_T p (r_Eout r)) t c g _ e w' SJ EH' (legit_at _ _ LP) G V EB DE D).
Qed.
Print Assumptions C69_calculate.

(** a thin layer, as in C65, takes from the ion its thickness times the stopping power, divided by the mass number *)
Lemma agree_scale g k d e : 0 <= k -> agree g d e -> agree g (k * d) (k * e).
Proof. intros K [A B]. apply (Rmult_le_compat_l k) in A, B; try exact K. unfold agree. split; lra. Qed.
Theorem C69_thin_layer junk h w p t c g rt i s e w1 : small_junk junk -> exec_all junk h world0 = Ok w -> legit_p p -> legit_t t -> 1 / 10 ^ 6 <= g <= 3 / 10 -> varies_by g p t c -> range_table p t c = Ok rt ->
  (1 <= i)%nat -> (S i < 600)%nat -> energy i <= pT p < energy (S i) - numeric_epsilon -> 0 <= m_th t ->
  m_th t <= 15 / 100 * chord_slope energy_table rt i * (pT p - energy i) -> 37 * (m_th t * m_th t) <= 1 / 100000 * (nth (S i) rt 0 - nth i rt 0) ->
  dedx p t c = Ok s -> energy_out junk p t c w = Ok (e, w1) -> agree g (pA p * (pT p - e)) (m_th t * s).
Proof.
  intros SJ EH LP LT G V RT I1 I TT TP TL TQ DS H. pose proof eps_pos as EP. assert (A0 : 0 < pA p) by apply LP. pose proof (C69_table p t c rt g RT A0 ltac:(lra) V) as EV.
  assert (GE : gentle energy_table rt).
  { destruct EV as [E0 E1]. split; [exact E0|]. intros k K. destruct (E1 k K) as [U D]. pose proof (E0 k ltac:(lia)) as P1. pose proof (E0 (S k) ltac:(lia)) as P2.
    set (a := chord_slope energy_table rt k) in *. set (b := chord_slope energy_table rt (S k)) in *. clearbody a b. assert (g * a <= 3 / 10 * a) by (apply Rmult_le_compat_r; lra). assert (g * b <= 3 / 10 * b) by (apply Rmult_le_compat_r; lra). lra. }
  assert (EH' : exec_all junk (h ++ [CEnergyOut p t c]) world0 = Ok w1) by (eapply exec_all_snoc; [exact EH|]; unfold exec, one; rewrite H; reflexivity).
  assert (DX : exists d w2, dedx_from_range junk p t c w1 = Ok (d, w2)).
  { pose proof (exec_all_wf junk h w EH) as W. unfold energy_out in H. apply bind_ok in H. destruct H as ([dp w3] & L & H). apply bind_ok in H. destruct H as (e' & _ & Q). apply ok_inj in Q. apply pair_equal_spec in Q. destruct Q as [_ <-].
    destruct (range_deriv_pos junk SJ h w EH p t c LP rt RT GE dp w3 (pT p) L) as (u & U & _).
    pose proof (laterE junk p t c w dp w3 W L (pT p)) as L2. rewrite same_p in L2. unfold dedx_from_range. rewrite L2. cbn [bind]. rewrite U. cbn [bind]. eauto. }
  destruct DX as (d & w2 & D). pose proof (C65_thin_energy_out junk SJ h w p t c rt i e w1 d w2 EH LP LT RT GE I1 I TT TP TL TQ H D) as ->.
  replace (pA p * (pT p - (pT p - m_th t * d / pA p))) with (m_th t * d) by (field; lra). apply agree_scale; [exact TP|].
  apply (C69_dedx_from_range junk _ w1 p t c g d s w2 SJ EH' LP G V); [|exact DS|exact D].
  pose proof (energy_le 0 i ltac:(lia) ltac:(lia)). pose proof (energy_le (S i) 599 ltac:(lia) ltac:(lia)). assert (energy 0 < energy i) by (pose proof (energy_incr 0 ltac:(lia)); pose proof (energy_le 1 i ltac:(lia) ltac:(lia)); lra). lra.
Qed.
Print Assumptions C69_thin_layer.

(** ** Concrete cases *)
(** a stopping power that is the inverse of the energy: it changes by 4 percent, and so the derivative of the spline of the ranges is within 8 percent of the chord *)
Example C69_density_case : exists l s, table (scaled_integral 12 (fun x => Ok x)) (et_values (energy_table (F:=R))) = Ok l /\ even 0.04 energy_table l /\
  make_spline energy_table l (1, 1) = Ok s /\ forall x, exists d i, spline_deriv s x = Ok d /\ Rabs (d - chord_slope energy_table l i) <= 0.08 * chord_slope energy_table l i.
Proof.
  set (f := fun x : R => Ok x).
  assert (SL : varies_upto 0.04 599 f).
  { pose proof (energy_pos 0 ltac:(lia)) as P0. split.
    - intros x u X U. injection U as <-. lra.
    - intros x z u v X XZ ZX _ U V. injection U as <-. injection V as <-. lra. }
  assert (TB : exists l, table (scaled_integral 12 f) (et_values (energy_table (F:=R))) = Ok l).
  { destruct (table_ok (scaled_integral 12 f)) as (l & TB & _); [|exists l; exact TB]. intros a b _. unfold scaled_integral. destruct C26_library as [IN LIB]. rewrite LIB, (quad_total 8 GL8_x GL8_w f a b IN ltac:(intros; reflexivity)). cbn [bind]. eexists. reflexivity. }
  destruct TB as (l & TB). exists l. destruct (even_chords 0.04 599 12 f l ltac:(lra) ltac:(lia) TB ltac:(lra) SL) as [C1 C2]. pose proof (scaled_nth 12 f l TB) as (LL & _ & _).
  assert (G : even 0.04 energy_table l) by (unfold even; change (et_n energy_table) with 600%nat; split; intros i I; [apply C1; lia|apply C2; lia]).
  rewrite energy_table_eq. destruct (C20_defined 600 (-3) 7 l (1, 1)) as [s Hs]; [lia|lia|]. exists s. split; [rewrite <- energy_table_eq; exact TB|]. rewrite energy_table_eq in G. split; [exact G|]. split; [exact Hs|].
  assert (J : Rabs 1 < 2) by (rewrite Rabs_pos_eq; lra). intros x.
  destruct (C69_derivative 600 (-3) 7 l (1, 1) s 0.04 x ltac:(lia) ltac:(lia) ltac:(lra) library_fine J J Hs ltac:(lra) G) as (d & i & D & I & _ & _ & B). exists d, i. split; [exact D|]. eapply Rle_trans; [exact B|].
  destruct G as [G _]. specialize (G i I). apply Rmult_le_compat_r; [lra|]. unfold spread. destruct (Rle_dec 0.04 (1 / 10)); lra.
Qed.
(** protons in nitrogen: 30 percent *)
Theorem C69_proton rho th c : usual c -> varies_by 0.3 proton (gas rho th) c.
Proof. intros U. destruct (C65_proton_slow rho th c U) as [A B]. split; [exact A|]. intros x z d e X XZ ZX ZE D E. destruct (B x z d e X XZ ZX ZE D E). lra. Qed.
Print Assumptions C69_proton.
Lemma ends_case : energy 0 < 100 < energy 599.
Proof.
  rewrite !energy_G by lia. unfold gval, gstep. split.
  - replace 100 with (exp (ln 100)) by (apply exp_ln; lra). apply exp_increasing. assert (0 < ln 100) by (rewrite <- ln_1; apply ln_increasing; lra). unfold LN10_. numR. dec_norm. cbn [INR]. lra.
  - pose proof table_end_high as H. replace (LN10_ * (-3 + INR 599 * ((7 - -3) / (INR 600 - 1)))) with (LN10_ (F:=R) * 7); [lra|]. f_equal. rewrite !INR_IZR_INZ. field.
Qed.
(** 100 MeV, in a new program with the default settings *)
Example C69_proton_case : exists d w' e, dedx_from_range (fun _ => (1, 1)) (proton_at 100) (gas (1 / 800) 1) conf world0 = Ok (d, w') /\ dedx (proton_at 100) (gas (1 / 800) 1) conf = Ok e /\ 0 < d /\ 0 < e /\ agree 0.3 d e.
Proof.
  set (j := fun _ : nat => (1, 1)). assert (SJ : small_junk j) by (intros k; cbn [j fst snd]; rewrite Rabs_pos_eq; lra).
  destruct (dedx_from_range_good j (proton_at 100) (gas (1 / 800) 1) conf world0 (legit_at proton 100 proton_legit) (gas_legit _ _) world_ok0) as (d & w1 & H & _).
  assert (DD : defined (dedx (proton_at 100) (gas (1 / 800) 1) conf)).
  { apply dedx_ok; [unfold proj_Z_ok; cbn; lra|constructor; [cbn; lia|constructor]|]. unfold ls_safe. pose proof (PropLayers.top_above 100 ltac:(lra)) as BT. unfold below_top in BT. cbn [proton_at pT]. lra. }
  destruct DD as (e & E). exists d, w1, e. split; [exact H|]. split; [exact E|].
  assert (E0 : 0 < e) by (apply (proj1 (C69_proton (1 / 800) 1 conf usual_default) 100 e ends_case E)).
  assert (AG : agree 0.3 d e) by (apply (C69_dedx_from_range j [] world0 (proton_at 100) (gas (1 / 800) 1) conf 0.3 d e w1 SJ eq_refl (legit_at proton 100 proton_legit) ltac:(lra) (C69_proton _ _ _ usual_default) ends_case E H)).
  split; [|split; [exact E0|exact AG]]. destruct AG as [_ AG]. unfold allowance in AG. destruct (Rle_dec 0.3 (1 / 10)); lra.
Qed.
(** after any calls: a layer of at most 3 mg/cm2 of nitrogen and a proton of 2210 to 2290 MeV *)
Theorem C69_proton_thin junk h w rho th c T : usual c -> small_junk junk -> exec_all junk h world0 = Ok w -> world_ok w -> 2210 <= T <= 2290 -> 0 <= th <= 3 / 1000 ->
  exists e w1 s, energy_out junk (proton_at T) (gas rho th) c w = Ok (e, w1) /\ dedx (proton_at T) (gas rho th) c = Ok s /\ 0 < s /\ agree 0.3 (T - e) (th * s).
Proof.
  intros U SJ EH OW TT TH. destruct (PropMonoProtonOut.C65_proton_thin junk h w rho th c T U SJ EH OW TT TH) as (e & w1 & d & H & D & -> & _).
  assert (EH' : exec_all junk (h ++ [CEnergyOut (proton_at T) (gas rho th) c]) world0 = Ok w1) by (eapply exec_all_snoc; [exact EH|]; unfold exec, one; rewrite H; reflexivity).
  assert (DD : defined (dedx (proton_at T) (gas rho th) c)).
  { apply dedx_ok; [unfold proj_Z_ok; cbn; lra|constructor; [cbn; lia|constructor]|]. unfold ls_safe. pose proof (PropLayers.top_above T ltac:(lra)) as BT. unfold below_top in BT. cbn [proton_at pT]. lra. }
  destruct DD as (s & E). exists (T - th * d), w1, s. split; [exact H|]. split; [exact E|].
  assert (TE : energy 0 < T < energy 599).
  { destruct ends_case as [E0 _]. split; [lra|]. rewrite energy_G by lia. unfold gval, gstep. pose proof table_end_high as HT. replace (LN10_ * (-3 + INR 599 * ((7 - -3) / (INR 600 - 1)))) with (LN10_ (F:=R) * 7); [lra|]. f_equal. rewrite !INR_IZR_INZ. field. }
  split; [apply (proj1 (C69_proton rho th c U) T s TE E)|]. replace (T - (T - th * d)) with (th * d) by ring. apply agree_scale; [lra|].
  exact (C69_dedx_from_range junk _ w1 (proton_at T) (gas rho th) c 0.3 d s w1 SJ EH' (legit_at proton T proton_legit) ltac:(lra) (C69_proton _ _ _ U) TE E D).
Qed.
Print Assumptions C69_proton_thin.
