(** * C47: the moments of multiple scattering in a layer *)
From Coq Require Import ZArith QArith Reals List Bool Lra Lia.
From Verif Require Import Num NumR Structures Integrator DataQuadrature Calculations Storage Catima SpecData DataProofs BoundsProofs ApiTotal Cases PropMaterial PropKin PropSrim QuadProofs PropQuad PropReact PropRad.
Import ListNotations.
Local Open Scope R_scope.

(** ** Cauchy-Schwarz for a rule with positive weights *)
Lemma discriminant a b c : (forall s, 0 <= a * (s * s) + 2 * b * s + c) -> b * b <= a * c.
Proof.
  intros H. destruct (Req_EM_T a 0) as [->|N].
  - assert (B : b = 0); [|rewrite B; lra]. destruct (Req_EM_T b 0) as [B0|NB]; [exact B0|]. exfalso. pose proof (H (- (c + 1) / (2 * b))) as X.
    replace (2 * b * (- (c + 1) / (2 * b))) with (- (c + 1)) in X by (field; exact NB). lra.
  - assert (A : 0 < a).
    { destruct (Rtotal_order a 0) as [L|[E|G]]; [|contradiction|exact G]. exfalso.
      set (s := (Rabs b + Rabs c + 1) * (1 + / (- a)) ). 
      assert (IA : 0 < / (- a)) by (apply Rinv_0_lt_compat; lra). assert (AI : - a * / - a = 1) by (apply Rinv_r; lra).
      pose proof (Rabs_pos b). pose proof (Rabs_pos c). pose proof (H (s + s)) as X. pose proof (Rle_abs b). pose proof (Rle_abs c). 
      assert (S1 : Rabs b + Rabs c + 1 <= s) by (unfold s; nra). assert (S2 : Rabs b + Rabs c + 1 <= - a * s) by (unfold s; nra).
      assert (- a * s * s >= (Rabs b + Rabs c + 1) * s) by nra. nra. }
    pose proof (H (- b / a)) as X. replace (a * (- b / a * (- b / a)) + 2 * b * (- b / a) + c) with ((a * c - b * b) / a) in X by (field; lra).
    assert (0 <= a * c - b * b); [|lra]. replace (a * c - b * b) with ((a * c - b * b) / a * a) by (field; lra). apply Rmult_le_pos; lra.
Qed.

Lemma pair_ext nodes f g p q : (forall x, f x = g x) -> pair_sum nodes f p q = pair_sum nodes g p q.
Proof. intros E. induction nodes as [|[x w] l IH]; cbn [pair_sum]; [reflexivity|]. now rewrite !E, IH. Qed.
Lemma pair_nonneg nodes f p q : (forall n, In n nodes -> 0 < snd n /\ 0 <= f (p * fst n + q) /\ 0 <= f (- p * fst n + q)) -> 0 <= pair_sum nodes f p q.
Proof.
  induction nodes as [|[x w] l IH]; cbn [pair_sum]; intros H; [lra|]. destruct (H (x, w) (or_introl eq_refl)) as (W & A & B). cbn [fst snd] in *.
  assert (0 <= pair_sum l f p q) by (apply IH; intros n Hn; apply H; now right). assert (0 <= w * (f (p * x + q) + f (- p * x + q))) by (apply Rmult_le_pos; lra). lra.
Qed.

(** moments of order 0, 1, 2 about [r] of a non-negative density, by the integrator of the library *)
Lemma moments' f0 f1 f2 (r : R) I0 I1 I2 : 0 < r ->
  (forall x v, used (gl_nodes GL8_x GL8_w) ((r - 0) / 2) ((r + 0) / 2) x -> f0 x = Ok v -> 0 <= v) ->
  (forall x v, f0 x = Ok v -> f1 x = Ok ((r - x) * v) /\ f2 x = Ok ((r - x) * (r - x) * v)) ->
  integrate (F:=R) f0 0 r = Ok I0 -> integrate (F:=R) f1 0 r = Ok I1 -> integrate (F:=R) f2 0 r = Ok I2 ->
  0 <= I0 /\ 0 <= I1 /\ 0 <= I2 /\ I1 * I1 <= I0 * I2.
Proof.
  intros R0 P E J0 J1 J2. destruct C26_library as [IN L]. rewrite L in J0, J1, J2.
  pose proof (quad_defined _ _ _ _ _ _ _ IN J0) as D0. pose proof (quad_node _ _ _ _ _ _ _ IN J0) as N0. pose proof (quad_node _ _ _ _ _ _ _ IN J1) as N1. pose proof (quad_node _ _ _ _ _ _ _ IN J2) as N2.
  change (Nat.odd 8) with false in N0, N1, N2. unfold node_sum in N0, N1, N2. set (p := (r - 0) / 2) in *. set (q := (r + 0) / 2) in *. set (nodes := gl_nodes GL8_x GL8_w) in *.
  assert (U : forall x, used nodes p q x -> 0 < x < r) by (intros x X; apply (used_inside _ _ _ _ _ _ IN R0 X)).
  set (g := tot f0) in *.
  assert (G0 : forall x, used nodes p q x -> 0 <= g x) by (intros x X; apply (P x); [exact X|apply D0; exact X]).
  assert (T1 : forall x, used nodes p q x -> tot f1 x = (r - x) * g x) by (intros x X; unfold tot; rewrite (proj1 (E x _ (D0 x X))); reflexivity).
  assert (T2 : forall x, used nodes p q x -> tot f2 x = (r - x) * (r - x) * g x) by (intros x X; unfold tot; rewrite (proj2 (E x _ (D0 x X))); reflexivity).
  assert (W : forall n, In n nodes -> 0 < snd n /\ used nodes p q (p * fst n + q) /\ used nodes p q (- p * fst n + q)).
  { intros n Hn. split; [apply (nodes_range _ _ _ (rule_ok _ _ _ IN) n Hn)|]. split; exists n; auto. }
  assert (S1 : forall l, incl l nodes -> pair_sum l (tot f1) p q = pair_sum l (fun x => (r - x) * g x) p q).
  { induction l as [|[x w] l IH]; intros IL; cbn [pair_sum]; [reflexivity|]. destruct (W (x, w) (IL _ (or_introl eq_refl))) as (_ & A & B). cbn [fst] in A, B.
    rewrite (T1 _ A), (T1 _ B), IH; [reflexivity|]. intros n Hn. apply IL. now right. }
  assert (S2 : forall l, incl l nodes -> pair_sum l (tot f2) p q = pair_sum l (fun x => (r - x) * (r - x) * g x) p q).
  { induction l as [|[x w] l IH]; intros IL; cbn [pair_sum]; [reflexivity|]. destruct (W (x, w) (IL _ (or_introl eq_refl))) as (_ & A & B). cbn [fst] in A, B.
    rewrite (T2 _ A), (T2 _ B), IH; [reflexivity|]. intros n Hn. apply IL. now right. }
  rewrite (S1 nodes (incl_refl _)) in N1. rewrite (S2 nodes (incl_refl _)) in N2.
  set (M0 := pair_sum nodes g p q) in *. set (M1 := pair_sum nodes (fun x => (r - x) * g x) p q) in *. set (M2 := pair_sum nodes (fun x => (r - x) * (r - x) * g x) p q) in *.
  assert (PP : 0 < p) by (unfold p; lra).
  assert (Q0 : 0 <= M0) by (apply pair_nonneg; intros n Hn; destruct (W n Hn) as (A & B & C); auto).
  assert (Q1 : 0 <= M1).
  { apply pair_nonneg; intros n Hn; destruct (W n Hn) as (A & B & C). pose proof (U _ B). pose proof (U _ C). split; [exact A|]. split; apply Rmult_le_pos; auto; lra. }
  assert (Q2 : 0 <= M2).
  { apply pair_nonneg; intros n Hn; destruct (W n Hn) as (A & B & C). split; [exact A|]. split; apply Rmult_le_pos; auto; apply Rle_0_sqr. }
  assert (CS : M1 * M1 <= M0 * M2).
  { apply discriminant. intros s.
    assert (EQ : M0 * (s * s) + 2 * M1 * s + M2 = pair_sum nodes (fun x => (s + (r - x)) * (s + (r - x)) * g x) p q).
    { unfold M0, M1, M2. 
      rewrite (pair_ext nodes (fun x => (s + (r - x)) * (s + (r - x)) * g x) (fun x => 1 * ((s * s) * g x + (2 * s) * ((r - x) * g x)) + 1 * ((r - x) * (r - x) * g x)) p q) by (intros x; ring).
      rewrite (pair_lin nodes (fun x => (s * s) * g x + (2 * s) * ((r - x) * g x)) (fun x => (r - x) * (r - x) * g x)), (pair_lin nodes g (fun x => (r - x) * g x)). ring. }
    rewrite EQ. apply pair_nonneg. intros n Hn. destruct (W n Hn) as (A & B & C). split; [exact A|]. split; apply Rmult_le_pos; auto; apply Rle_0_sqr. }
  rewrite N0, N1, N2. repeat split; try (apply Rmult_le_pos; lra).
  replace (p * M1 * (p * M1)) with (p * p * (M1 * M1)) by ring. replace (p * M0 * (p * M2)) with (p * p * (M0 * M2)) by ring. apply Rmult_le_compat_l; [|exact CS]. apply Rmult_le_pos; lra.
Qed.

(** ** The three moments of a layer *)
Lemma Tfr_nonneg p : 0 <= Tfr (F:=R) p (lit 1) (lit 1.0).
Proof.
  unfold Tfr. numR. destruct (Rleb_spec (pT p) (Rlit 0)) as [L|L]; [dec_norm; lra|]. cbv zeta. unfold ipow. numR.
  change ((2 =? 0)%Z) with false. change ((2 =? 1)%Z) with false. change ((2 =? 2)%Z) with true. cbv iota.
  set (y := p_from_T _ _ * _). clearbody y. replace (Rlit 1.0) with 1 by (dec_norm; lra). replace (Rlit 1) with 1 by (dec_norm; lra). rewrite Rmult_1_l.
  unfold Rdiv. rewrite Rmult_1_l. destruct (Req_EM_T y 0) as [->|N]; [rewrite Rmult_0_r, Rinv_0; lra|].
  left. apply Rinv_0_lt_compat. apply Rsqr_pos_lt in N. exact N.
Qed.

(** the smallest sampled depth is 0.0198 of the layer *)
Lemma depth r x : 0 < r -> used (gl_nodes GL8_x GL8_w) ((r - 0) / 2) ((r + 0) / 2) x -> 198 / 10000 * r <= x.
Proof.
  intros R0 (n & Hn & X). destruct (nodes_in _ _ _ Hn) as (u & w & U & _ & ->). cbn [fst] in X.
  assert (B : 0 <= Rlit u <= 9603 / 10000).
  { assert (C : forallb (fun x => (0 <=? dec_mant x)%Z && Qle_bool (dec_Q x) (9603 # 10000)) GL8_x = true) by (vm_compute; reflexivity).
    rewrite forallb_forall in C. specialize (C u U). apply andb_prop in C. destruct C as [C1 C2]. split; [apply Rlit_nonneg; exact C1|].
    apply Qle_bool_iff, Qreals.Qle_Rle in C2. rewrite Rlit_Q. eapply Rle_trans; [exact C2|]. unfold Q2R. cbn. lra. }
  destruct X as [-> | ->]; nra.
Qed.
Definition highland (l : R) : R := 97 / 100 * (1 + ln l / (207 / 10)) * (1 + ln l / (227 / 10)).
Lemma highland_value l : dhighland_ff (F:=R) l = highland l.
Proof. unfold dhighland_ff, highland. numR. cbv zeta. replace (Rlit 0.97) with (97 / 100) by (dec_norm; lra). replace (Rlit 20.7) with (207 / 10) by (dec_norm; lra). replace (Rlit 22.7) with (227 / 10) by (dec_norm; lra). replace (Rlit 1) with 1 by (dec_norm; lra). reflexivity. Qed.
Lemma ln_small : -(207 / 10) <= ln (198 / 10000 * (1 / 1000000)).
Proof.
  rewrite <- (ln_exp (- (207 / 10))). apply Rlt_le, ln_increasing; [apply exp_pos|].
  apply Rmult_lt_reg_r with (exp (207 / 10)); [apply exp_pos|]. rewrite <- exp_plus. replace (- (207 / 10) + 207 / 10) with 0 by ring. rewrite exp_0.
  assert (E1 : 1 + 1 / 8 <= exp (1 / 8)) by apply exp_ineq1_le.
  assert (SQ : forall u v w, 0 < u -> u <= exp v -> w <= u * u -> w <= exp (v + v)) by (intros u v w U V W; rewrite exp_plus; apply Rle_trans with (u * u); [exact W|apply Rmult_le_compat; lra]).
  apply (SQ _ _ (126 / 100)) in E1; [|lra|lra]. apply (SQ _ _ (158 / 100)) in E1; [|lra|lra]. apply (SQ _ _ (249 / 100)) in E1; [|lra|lra].
  apply (SQ _ _ 6) in E1; [|lra|lra]. apply (SQ _ _ 36) in E1; [|lra|lra]. assert (E4 := E1). apply (SQ _ _ 1296) in E1; [|lra|lra]. apply (SQ _ _ 1600000) in E1; [|lra|lra].
  assert (B : 57600000 <= exp (1 / 8 + 1 / 8 + (1 / 8 + 1 / 8) + (1 / 8 + 1 / 8 + (1 / 8 + 1 / 8)) + (1 / 8 + 1 / 8 + (1 / 8 + 1 / 8) + (1 / 8 + 1 / 8 + (1 / 8 + 1 / 8))) + 18)).
  { replace (_ + 18) with (4 + 16) by lra. rewrite exp_plus.
    match type of E4 with _ <= exp ?v => replace v with 4 in E4 by lra end. match type of E1 with _ <= exp ?v => replace v with 16 in E1 by lra end. nra. }
  match type of B with _ <= exp ?v => assert (C : exp v < exp (207 / 10)) by (apply exp_increasing; lra) end. lra.
Qed.
Lemma highland_nonneg l : 198 / 10000 * (1 / 1000000) <= l -> 0 <= highland l.
Proof.
  intros L. assert (Q : - (207 / 10) <= ln l).
  { eapply Rle_trans; [apply ln_small|]. destruct L as [L| ->]; [left; apply ln_increasing; lra|right; reflexivity]. }
  unfold highland. apply Rmult_le_pos; [apply Rmult_le_pos; [lra|]|]; lra.
Qed.

Lemma Es2_pos c : 0 < scattering_Es2 (F:=R) c.
Proof.
  assert (EQ : 0 < Es_squared (F:=R)).
  { unfold Es_squared, PI_, fine_structure_inverted, electron_mass. numR. dec_norm.
    assert (FS : 0 < fine_structure (F:=R)) by (unfold fine_structure; numR; dec_norm; lra). pose proof (pos_quot 1 _ Rlt_0_1 FS).
    repeat (apply Rmult_lt_0_compat; [|lra]); lra. }
  unfold scattering_Es2. destruct (c_scat c =? sc_fermi_rossi)%Z; [exact EQ|]. destruct (c_scat c =? sc_dhighland)%Z; [exact EQ|]. numR. dec_norm. lra.
Qed.
(** a layer whose scattering is described by a density: every mode but Gottschalk's, and a layer of at least a millionth
    of a radiation length if the mode is Highland's *)
Definition described (t : Material R) (c : Config R) (X0 depth : R) : Prop :=
  c_scat c <> sc_gottschalk /\ (c_scat c = sc_dhighland -> X0 / 1000000 <= depth * m_rho t).

Theorem C47_moments rng eo p t c range X0 v0 v1 v2 :
  rng (pT p) = Ok range -> 0 <= range -> 0 < m_rho t -> 0 <= m_th t -> solid t -> radiation_ok t ->
  radiation_length (F:=R) t = Ok X0 -> described t c X0 (Rmin (range / m_rho t) (m_th t / m_rho t)) ->
  angular_variance_with (F:=R) rng eo p t c 0 = Ok v0 -> angular_variance_with (F:=R) rng eo p t c 1 = Ok v1 -> angular_variance_with (F:=R) rng eo p t c 2 = Ok v2 ->
  0 <= v0 /\ 0 <= v1 /\ 0 <= v2 /\ v1 * v1 <= v0 * v2.
Proof.
  intros RG R0 D0 T0 SO RO X [NG HL]. unfold angular_variance_with. cbv zeta. rewrite RG. cbn [bind]. rewrite X. cbn [bind].
  destruct (Z.eqb_spec (c_scat c) sc_gottschalk) as [C|_]; [contradiction|].
  assert (XP : 0 < X0) by (destruct (radiation_positive t SO RO) as (x & E & P); rewrite E in X; injection X as <-; exact P).
  assert (RR : residual_range (F:=R) range t = Rmin (range / m_rho t) (m_th t / m_rho t)).
  { unfold residual_range, thickness_cm. rewrite fminR. numR. destruct (Reqb_spec (m_rho t) (Rlit 0.0)) as [E|E]; [exfalso; revert E; dec_norm; lra|reflexivity]. }
  rewrite RR. clear RR. set (r := Rmin (range / m_rho t) (m_th t / m_rho t)) in *.
  assert (RP : 0 <= r).
  { unfold r. apply Rmin_glb; unfold Rdiv; apply Rmult_le_pos; try assumption; left; apply Rinv_0_lt_compat; assumption. }
  clearbody r. intros H0 H1 H2.
  destruct (integrate (fx0p eo p t c X0 r 0) (lit 0) r) as [I0|] eqn:J0; cbn [bind] in H0; [|discriminate].
  destruct (integrate (fx0p eo p t c X0 r 1) (lit 0) r) as [I1|] eqn:J1; cbn [bind] in H1; [|discriminate].
  destruct (integrate (fx0p eo p t c X0 r 2) (lit 0) r) as [I2|] eqn:J2; cbn [bind] in H2; [|discriminate].
  revert J0 J1 J2 H0 H1 H2. numR. replace (Rlit 0) with 0 by (dec_norm; lra). intros J0 J1 J2 H0 H1 H2.
  set (k := fun I => I * m_rho t * ipow (pZ p) 2 * scattering_Es2 c / X0) in *.
  assert (V0 : v0 = k I0) by (unfold k; congruence). assert (V1 : v1 = k I1) by (unfold k; congruence). assert (V2 : v2 = k I2) by (unfold k; congruence).
  assert (K : exists s, 0 <= s /\ forall I, k I = s * I).
  { exists (m_rho t * (pZ p * pZ p) * scattering_Es2 c / X0). split; [|intros I; unfold k, ipow; cbn [Z.eqb Pos.eqb]; numR; field; lra].
    pose proof (Es2_pos c).
    apply Rmult_le_pos; [|left; apply Rinv_0_lt_compat; exact XP]. apply Rmult_le_pos; [|lra]. apply Rmult_le_pos; [lra|apply Rle_0_sqr]. }
  destruct K as (s & S0 & KS). rewrite KS in V0, V1, V2. 
  assert (G : 0 <= I0 /\ 0 <= I1 /\ 0 <= I2 /\ I1 * I1 <= I0 * I2).
  { destruct RP as [RP|<-].
    - apply (moments' (fx0p eo p t c X0 r 0) (fx0p eo p t c X0 r 1) (fx0p eo p t c X0 r 2) r); auto.
      + intros x v U E. unfold fx0p in E. destruct (eo (fmul x (m_rho t))) as [e|]; cbn [bind] in E; [|discriminate]. revert E. unfold ipow. cbn [Z.eqb Pos.eqb]. numR. intros E.
        match type of E with Ok ?a = _ => assert (VE : v = a) by congruence end. rewrite VE. pose proof (Tfr_nonneg (at_T p e)) as TN. revert TN. numR. intros TN.
        apply Rmult_le_pos; [|exact TN]. apply Rmult_le_pos; [dec_norm; lra|].
        destruct (Z.eqb_spec (c_scat c) sc_dhighland) as [C|_]; [|dec_norm; lra]. rewrite highland_value. apply highland_nonneg. specialize (HL C).
        pose proof (depth r x RP U). apply Rmult_le_reg_r with X0; [exact XP|]. unfold Rdiv at 3. rewrite (Rmult_assoc (x * m_rho t)), Rinv_l by lra. nra.
      + intros x v E. unfold fx0p in *. destruct (eo (fmul x (m_rho t))) as [e|]; cbn [bind] in *; [|discriminate]. revert E. unfold ipow. cbn [Z.eqb Pos.eqb]. numR. intros E.
        match type of E with Ok ?a = _ => assert (VE : v = a) by congruence end. replace (Rlit 1.0) with 1 in * by (dec_norm; lra). rewrite VE. split; f_equal; ring.
    - assert (Z : forall f I, integrate (F:=R) f 0 0 = Ok I -> I = 0).
      { intros f I J. destruct C26_library as [IN L]. rewrite L in J. apply (quad_node _ _ _ _ _ _ _ IN) in J. rewrite J. field. }
      rewrite (Z _ _ J0), (Z _ _ J1), (Z _ _ J2). lra. }
  destruct G as (G0 & G1 & G2 & G3). rewrite V0, V1, V2. repeat split; try (apply Rmult_le_pos; assumption).
  replace (s * I1 * (s * I1)) with (s * s * (I1 * I1)) by ring. replace (s * I0 * (s * I2)) with (s * s * (I0 * I2)) by ring. apply Rmult_le_compat_l; [apply Rmult_le_pos; assumption|exact G3].
Qed.
Print Assumptions C47_moments.

(** the same for the public functions, called in the same state of the library *)
Theorem C47_api junk p t c w rg wr X0 v0 w0 v1 w1 v2 w2 :
  range (F:=R) junk p t c w = Ok (rg, wr) -> 0 <= rg -> 0 < m_rho t -> 0 <= m_th t -> solid t -> radiation_ok t ->
  radiation_length (F:=R) t = Ok X0 -> described t c X0 (Rmin (rg / m_rho t) (m_th t / m_rho t)) ->
  angular_variance (F:=R) junk p t c 0 w = Ok (v0, w0) -> angular_variance (F:=R) junk p t c 1 w = Ok (v1, w1) -> angular_variance (F:=R) junk p t c 2 w = Ok (v2, w2) ->
  0 <= v0 /\ 0 <= v1 /\ 0 <= v2 /\ v1 * v1 <= v0 * v2.
Proof.
  unfold range, angular_variance. destruct (lookup junk p t c w) as [[d wd]|]; cbn [bind]; [|discriminate]. intros RG R0 D0 T0 SO RO X DE H0 H1 H2.
  destruct (interp_eval _ _) as [r|] eqn:E in RG; cbn [bind] in RG; [|discriminate]. injection RG as -> _.
  destruct (angular_variance_with _ _ p t c 0) as [a0|] eqn:A0; cbn [bind] in H0; [|discriminate].
  destruct (angular_variance_with _ _ p t c 1) as [a1|] eqn:A1; cbn [bind] in H1; [|discriminate].
  destruct (angular_variance_with _ _ p t c 2) as [a2|] eqn:A2; cbn [bind] in H2; [|discriminate].
  injection H0 as -> _. injection H1 as -> _. injection H2 as -> _. exact (C47_moments _ _ p t c rg X0 v0 v1 v2 E R0 D0 T0 SO RO X DE A0 A1 A2).
Qed.
Print Assumptions C47_api.

(** ** The scattering factor *)
Definition with_factor (c : Config R) (k : R) : Config R := mkConfig (c_zeff c) (c_corr c) (c_calc c) (c_low c) (c_scat c) k.
Theorem C47_factor : (forall rng eo p t c k order, angular_variance_with (F:=R) rng eo p t (with_factor c k) order = angular_variance_with rng eo p t c order) /\
  (forall p m c k a, da2dx (F:=R) p m (with_factor c 1) = Ok a -> da2dx p m (with_factor c k) = Ok (k * a)).
Proof.
  split; [reflexivity|]. intros p m c k a. unfold da2dx. change (scattering_Es2 (with_factor c 1)) with (scattering_Es2 c). change (scattering_Es2 (with_factor c k)) with (scattering_Es2 c).
  destruct (angular_scattering_power p m _) as [x|]; cbn [bind]; [|discriminate]. numR. cbn [c_sfac with_factor]. intros H. rewrite Rmult_1_l in H. injection H as ->. reflexivity.
Qed.
Print Assumptions C47_factor.

(** ** Where the integrand is not a density *)
(** Highland's correction is negative for depths between e^-22.7 and e^-20.7 radiation lengths *)
Theorem C47_highland_refuted : exists l, 0 < l /\ dhighland_ff (F:=R) l < 0.
Proof.
  exists (exp (- (217 / 10))). split; [apply exp_pos|]. rewrite highland_value. unfold highland. rewrite ln_exp. lra.
Qed.
Print Assumptions C47_highland_refuted.

(** Gottschalk's correction factor is negative close behind the entrance: in front of every proton beam of less than 10^8 MeV *)
Lemma ln_bounds x y : 0 < x <= y -> ln x <= ln y.
Proof. intros [A [B| ->]]; [left; now apply ln_increasing|right; reflexivity]. Qed.
Lemma length_az a z : (1 <= a <= 1000)%Z -> (1 <= z <= 1000)%Z -> positive (scattering_length_az (F:=R) a z).
Proof.
  intros A Z. unfold scattering_length_az. rewrite imul_ok by nia. cbn [bind]. eexists. split; [reflexivity|]. numR.
  assert (AZ : 1 <= IZR (a * z) <= 1000000) by (split; apply IZR_le; nia). assert (1 <= IZR a) by (apply IZR_le; lia). assert (1 <= IZR z) by (apply IZR_le; lia).
  rewrite Rpow_pos by lra. set (y := Rpower _ _).
  assert (Y : 1 / 1000 <= y).
  { unfold y, Rpower. replace (Rlit (-1.0) / Rlit 3.0) with (- (1 / 3)) by (dec_norm; field).
    apply Rle_trans with (exp (- (1 / 2) * ln 1000000)).
    - replace 1000000 with (1000 * 1000) by lra. rewrite ln_mult by lra. replace (- (1 / 2) * (ln 1000 + ln 1000)) with (- ln 1000) by field.
      rewrite exp_Ropp, exp_ln by lra. lra.
    - assert (L0 : 0 <= ln (IZR (a * z))) by (rewrite <- ln_1; apply ln_bounds; lra). pose proof (ln_bounds _ _ (conj (Rlt_le_trans _ _ _ Rlt_0_1 (proj1 AZ)) (proj2 AZ))) as L1.
      assert (Q : - (1 / 2) * ln 1000000 <= - (1 / 3) * ln (IZR (a * z))) by lra. destruct Q as [Q| ->]; [left; now apply exp_increasing|right; reflexivity]. }
  assert (LG : 1 / 2 < ln (Rlit 33219 * y)).
  { assert (K : Rlit 33219 = 33219) by (dec_norm; lra). rewrite K. apply Rlt_le_trans with (ln 33).
    - rewrite <- (ln_exp (1 / 2)). apply ln_increasing; [apply exp_pos|]. apply Rlt_trans with (exp 1); [apply exp_increasing; lra|]. pose proof exp_le_3. lra.
    - apply ln_bounds. lra. }
  set (g := ln _) in *. clearbody g. replace (Rlit 1.0) with 1 by (dec_norm; lra). replace (Rlit 1) with 1 by (dec_norm; lra). replace (Rlit 2) with 2 by (dec_norm; lra).
  assert (K : 0 < Rlit 0.00034896) by (dec_norm; lra). set (k := Rlit 0.00034896) in *. clearbody k.
  apply pos_quot; [lra|]. apply pos_quot; [|lra]. apply Rmult_lt_0_compat; [|lra]. apply Rmult_lt_0_compat; [|lra]. apply Rmult_lt_0_compat; lra.
Qed.
Lemma scattering_length_pos m : solid m -> Forall (fun t => 1 <= tA t < 1000 /\ (tZ t <= 1000)%Z) (m_atoms m) -> positive (scattering_length (F:=R) m).
Proof.
  intros (NE & M & FA) FB. unfold scattering_length.
  assert (G : forall l b, 0 <= b -> (l = [] -> 0 < b) -> Forall (fun t => 0 < tA t /\ (1 <= tZ t)%Z /\ 0 < tstn t) l -> Forall (fun t => 1 <= tA t < 1000 /\ (tZ t <= 1000)%Z) l ->
    exists s, ofold (fun (sum : R) (t : Target R) => a <- cast (fto_int (tA t));; r <- scattering_length_az a (tZ t);; Ok (fadd sum (fdiv (wfrac m t) r))) l b = Ok s /\ 0 < s).
  { induction l as [|t l IH]; intros b B0 B1 F1 F2; cbn [ofold]; [exists b; split; [reflexivity|auto]|].
    inversion F1 as [|? ? (X1 & X2 & X3) F1']; subst. inversion F2 as [|? ? (Y1 & Y2) F2']; subst.
    change (fto_int (tA t)) with (Rto_int (tA t)). rewrite Rto_int_nonneg by lra. cbn [cast bind].
    destruct (Rfloor_bound (tA t)) as [FL FU]. assert (A1 : (0 < Rfloor_Z (tA t))%Z) by (apply lt_IZR; lra). assert (A2 : (Rfloor_Z (tA t) < 1000)%Z) by (apply lt_IZR; lra).
    destruct (length_az (Rfloor_Z (tA t)) (tZ t)) as (r & R & RP); [lia|lia|]. rewrite R. cbn [bind]. numR.
    pose proof (wfrac_pos m t M X1 X3). pose proof (pos_quot _ _ H RP). apply IH; auto; [lra|intros _; lra]. }
  destruct (G (m_atoms m) (lit 0)) as (s & S & SP); auto; [numR; dec_norm; lra|intros; contradiction|]. rewrite S. cbn [bind]. numR. eexists. split; [reflexivity|].
  apply pos_quot; [dec_norm; lra|exact SP].
Qed.

(** p v of an ion of energy e per nucleon *)
Lemma momentum_velocity e A : 0 < e -> 0 < A -> fmul (p_from_T (F:=R) e A) (fdiv (p_from_T e A) (fmul (fadd e atomic_mass_unit) A)) = A * (e * (e + 2 * u0) / (e + u0)).
Proof.
  intros E A0. unfold p_from_T. rewrite u0_eq. numR. pose proof u0_pos as U. replace (Rlit 2) with 2 by (dec_norm; lra).
  set (X := e * (e + 2 * u0)). assert (XP : 0 < X) by (apply Rmult_lt_0_compat; lra). pose proof (sqrt_sqrt X ltac:(lra)) as SS. set (s := sqrt X) in *.
  replace (s * A * (s * A / ((e + u0) * A))) with (A * (s * s / (e + u0))) by (field; lra). rewrite SS. reflexivity.
Qed.
Theorem C47_gottschalk_refuted p m : 0 < pT p -> 0 < pA p -> pZ p <> 0 -> pA p * (pT p * (pT p + 2 * u0) / (pT p + u0)) <= 10 ^ 8 ->
  solid m -> Forall (fun t => 1 <= tA t < 1000 /\ (tZ t <= 1000)%Z) (m_atoms m) ->
  exists e v, 0 < e < pT p /\
    angular_scattering_power_xs (F:=R) (at_T p e) m (p_from_T (pT p) (pA p)) (p_from_T (pT p) (pA p) / ((pT p + u0) * pA p)) 225 = Ok v /\ v < 0.
Proof.
  intros T0 A0 Z0 PV SO FA. destruct (scattering_length_pos m SO FA) as (Xs & XE & XP). set (T := pT p) in *. set (A := pA p) in *.
  pose proof u0_pos as U.
  set (e := T * (1 - 1 / 10 ^ 21)). assert (K : 0 < 1 / 10 ^ 21 < 1 / 10) by lra. assert (E0 : 0 < e < T) by (unfold e; split; nra).
  exists e. unfold angular_scattering_power_xs. cbn [pT at_T]. change (fleb e (lit 0)) with (Rleb e (Rlit 0)). destruct (Rleb_spec e (Rlit 0)) as [L|_]; [exfalso; revert L; dec_norm; lra|].
  cbv zeta. rewrite XE. cbn [bind]. change (pA (at_T p e)) with A. change (pZ (at_T p e)) with (pZ p). eexists. split; [exact E0|]. split; [reflexivity|].
  rewrite !(momentum_velocity e A) by lra. 
  pose proof (momentum_velocity T A T0 A0) as MV. revert MV. rewrite u0_eq. numR. intros MV. rewrite MV. clear MV.
  set (pv := A * (e * (e + 2 * u0) / (e + u0))). set (pv1 := A * (T * (T + 2 * u0) / (T + u0))) in *. unfold ipow. cbn [Z.eqb Pos.eqb]. numR.
  assert (P0 : 0 < pv) by (unfold pv; apply Rmult_lt_0_compat; [exact A0|]; apply pos_quot; [apply Rmult_lt_0_compat|]; lra).
  assert (P1 : 0 < pv1) by (unfold pv1; apply Rmult_lt_0_compat; [exact A0|]; apply pos_quot; [apply Rmult_lt_0_compat|]; lra).
  assert (RA : 1 - 1 / 10 ^ 21 <= pv / pv1 < 1).
  { assert (Q : pv / pv1 = (1 - 1 / 10 ^ 21) * ((e + 2 * u0) * (T + u0) / ((e + u0) * (T + 2 * u0)))) by (unfold pv, pv1, e; field; repeat split; try lra; fold e; lra).
    split.
    - rewrite Q. assert (1 <= (e + 2 * u0) * (T + u0) / ((e + u0) * (T + 2 * u0))); [|nra].
      apply Rmult_le_reg_r with ((e + u0) * (T + 2 * u0)); [apply Rmult_lt_0_compat; lra|]. unfold Rdiv. rewrite Rmult_assoc, Rinv_l by (apply Rgt_not_eq, Rmult_lt_0_compat; lra). nra.
    - apply Rmult_lt_reg_r with pv1; [exact P1|]. unfold Rdiv. rewrite Rmult_assoc, Rinv_l, Rmult_1_r, Rmult_1_l by lra. unfold pv, pv1. apply Rmult_lt_compat_l; [exact A0|].
      assert (G : forall x, 0 < x -> x * (x + 2 * u0) / (x + u0) = x + u0 - u0 * u0 / (x + u0)) by (intros x X; field; lra). rewrite !G by lra.
      assert (u0 * u0 / (T + u0) < u0 * u0 / (e + u0)); [|lra]. apply Rmult_lt_compat_l; [apply Rmult_lt_0_compat; exact U|]. apply Rinv_lt_contravar; [apply Rmult_lt_0_compat; lra|lra]. }
  set (q := 1 - pv / pv1 * (pv / pv1)).
  assert (QB : 0 < q <= 1 / 10 ^ 20) by (unfold q; set (z := pv / pv1) in *; clearbody z; split; nra).
  assert (LT : 0 < ln 10) by (rewrite <- ln_1; apply ln_increasing; lra).
  assert (LP : forall n, ln (10 ^ n) = INR n * ln 10) by (intros n; induction n as [|n IH]; [cbn; rewrite ln_1; ring|]; rewrite S_INR; cbn [pow]; rewrite ln_mult by (try apply pow_lt; lra); rewrite IH; ring).
  assert (C1 : ln q / ln 10 <= -20).
  { apply Rmult_le_reg_r with (ln 10); [exact LT|]. unfold Rdiv. rewrite Rmult_assoc, Rinv_l, Rmult_1_r by lra.
    pose proof (ln_bounds q (1 / 10 ^ 20) QB) as B. unfold Rdiv in B. rewrite Rmult_1_l, ln_Rinv, LP in B by (apply pow_lt; lra). replace (INR 20) with 20 in B by (cbn; lra). lra. }
  assert (C2 : ln pv / ln 10 <= 8).
  { apply Rmult_le_reg_r with (ln 10); [exact LT|]. unfold Rdiv. rewrite Rmult_assoc, Rinv_l, Rmult_1_r by lra.
    assert (PP : pv <= 10 ^ 8). { apply Rle_trans with pv1; [|exact PV]. apply Rmult_le_reg_r with (/ pv1); [apply Rinv_0_lt_compat; exact P1|]. rewrite Rinv_r by lra. unfold Rdiv in RA. lra. }
    pose proof (ln_bounds pv (10 ^ 8) (conj P0 PP)) as B. rewrite LP in B. replace (INR 8) with 8 in B by (cbn; lra). exact B. }
  replace (Rlit 1 - pv / pv1 * (pv / pv1)) with q by (unfold q; dec_norm; lra).
  set (c1 := ln q / ln 10) in *. set (c2 := ln pv / ln 10) in *. clearbody c1 c2 q.
  replace (Rlit 0.5244) with (5244 / 10000) by (dec_norm; lra). replace (Rlit 0.1975) with (1975 / 10000) by (dec_norm; lra). replace (Rlit 0.2320) with (2320 / 10000) by (dec_norm; lra). replace (Rlit 0.0098) with (98 / 10000) by (dec_norm; lra).
  set (f := _ + _ + _ - _). assert (FN : f < 0) by (unfold f; nra). clearbody f.
  assert (0 < pZ p * pZ p) by (pose proof (Rsqr_pos_lt _ Z0) as H; exact H).
  assert (D : 0 < 225 * (pZ p * pZ p) / (Xs * (pv * pv))) by (apply pos_quot; [lra|]; apply Rmult_lt_0_compat; [exact XP|]; apply Rmult_lt_0_compat; exact P0).
  replace (f * 225 * (pZ p * pZ p) / (Xs * (pv * pv))) with (f * (225 * (pZ p * pZ p) / (Xs * (pv * pv)))) by (field; lra). nra.
Qed.
Print Assumptions C47_gottschalk_refuted.

(** ** A concrete case: 100 MeV/u carbon through 2 g/cm2 of water in the default mode, and the densities above *)
Example C47_case : solid (water 2) /\ radiation_ok (water 2) /\ (exists X0, radiation_length (F:=R) (water 2) = Ok X0 /\ described (water 2) conf X0 2) /\
  (exists v0 v1 v2, angular_variance_with (F:=R) (fun _ => Ok 7) (fun x => Ok (200 - 20 * x)) (carbon 200) (water 2) conf 0 = Ok v0 /\
    angular_variance_with (F:=R) (fun _ => Ok 7) (fun x => Ok (200 - 20 * x)) (carbon 200) (water 2) conf 1 = Ok v1 /\
    angular_variance_with (F:=R) (fun _ => Ok 7) (fun x => Ok (200 - 20 * x)) (carbon 200) (water 2) conf 2 = Ok v2 /\ v1 * v1 <= v0 * v2).
Proof.
  assert (SO : solid (water 2)) by (split; [discriminate|]; split; [|repeat (apply Forall_cons; [cbn; split; [|split; [lia|]]; dec_norm; lra|]); apply Forall_nil]; cbn; dec_norm; lra).
  assert (RO : radiation_ok (water 2)) by (unfold radiation_ok; repeat (apply Forall_cons; [cbn; lia|]); apply Forall_nil).
  split; [exact SO|]. split; [exact RO|]. destruct (radiation_positive _ SO RO) as (X0 & X & XP).
  assert (DE : forall d, described (water 2) conf X0 d) by (intros d; split; [discriminate|intros C; discriminate C]).
  split; [exists X0; auto|].
  assert (DD : forall k, defined (angular_variance_with (F:=R) (fun _ => Ok 7) (fun x => Ok (200 - 20 * x)) (carbon 200) (water 2) conf k)).
  { intros k. unfold angular_variance_with. cbv zeta. cbn [bind]. rewrite X. cbn [bind]. change (c_scat conf =? sc_gottschalk)%Z with false. cbv iota.
    dbind; [|apply defined_Ok]. apply integrate_defined. intros z. unfold fx0p. apply defined_Ok. }
  destruct (DD 0%Z) as [v0 V0]. destruct (DD 1%Z) as [v1 V1]. destruct (DD 2%Z) as [v2 V2]. exists v0, v1, v2. split; [exact V0|]. split; [exact V1|]. split; [exact V2|].
  apply (C47_moments (fun _ => Ok 7) (fun x => Ok (200 - 20 * x)) (carbon 200) (water 2) conf 7 X0 v0 v1 v2); auto; cbn; lra.
Qed.
