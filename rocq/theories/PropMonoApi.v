(** * C65: when the functions of the library that read the splines increase *)
From Coq Require Import ZArith Reals List Bool Lra Lia.
From Verif Require Import Num NumR Structures DataQuadrature EnergyTable Spline Integrator Calculations Storage Catima CacheProofs CacheFresh History KeyEq ApiCache
  EnergyOutProofs GridProofs QuadProofs TotalProofs ApiTotal LayerProofs PropGrid PropSpline PropQuad PropTables PropCache PropEnergyOut PropResult PropApi PropMono.
Import ListNotations.
Local Open Scope R_scope.

(** ** Tables of integrals of slowly varying densities *)
(** the density is positive and changes by at most 30 percent where the energy changes by at most 4 percent *)
Definition slow_upto (N : nat) (f : R -> outcome R) : Prop :=
  (forall x u, energy 0 < x < energy N -> f x = Ok u -> 0 < u) /\
  (forall x z u v, energy 0 < x -> x < z -> z <= 1.04 * x -> z < energy N -> f x = Ok u -> f z = Ok v -> v <= 1.3 * u /\ u <= 1.3 * v).
Definition slow (f : R -> outcome R) : Prop := slow_upto 599 f.

Lemma pair_dilate r f p q : forall nodes, pair_sum nodes f (r * p) (r * q) = pair_sum nodes (fun x => f (r * x)) p q.
Proof.
  induction nodes as [|[x w] l IH]; cbn [pair_sum]; [reflexivity|]. rewrite IH. replace (r * p * x + r * q) with (r * (p * x + q)) by ring. replace (- (r * p) * x + r * q) with (r * (- p * x + q)) by ring. reflexivity.
Qed.
(** the rule on an interval r times as far out *)
Lemma quad_dilate n xs ws f r a b I : In (n, xs, ws) gl_rules -> quad (n, xs, ws) f (r * a) (r * b) = Ok I ->
  exists J, quad (n, xs, ws) (fun x => f (r * x)) a b = Ok J /\ I = r * J.
Proof.
  intros HR HI. pose proof (quad_defined _ _ _ _ _ _ _ HR HI) as D. pose proof (quad_node _ _ _ _ _ _ _ HR HI) as EI.
  replace ((r * b - r * a) / 2) with (r * ((b - a) / 2)) in D, EI by field. replace ((r * b + r * a) / 2) with (r * ((b + a) / 2)) in D, EI by field.
  set (p := (b - a) / 2) in *. set (q := (b + a) / 2) in *. exists (p * node_sum (Nat.odd n) (gl_nodes xs ws) (tot (fun x => f (r * x))) p q). split.
  - apply quad_total; [exact HR|]. fold p q. intros x (z & Z1 & Z2). change (tot (fun x => f (r * x)) x) with (tot f (r * x)). apply D. exists z. split; [exact Z1|]. destruct Z2 as [->| ->]; [left|right]; ring.
  - rewrite EI, Rmult_assoc. f_equal. f_equal. change (tot (fun x => f (r * x))) with (fun x => tot f (r * x)). unfold node_sum. destruct (Nat.odd n); [|apply pair_dilate].
    destruct (gl_nodes xs ws) as [|[x w] l]; [reflexivity|]. rewrite pair_dilate. replace (r * p * x + r * q) with (r * (p * x + q)) by ring. reflexivity.
Qed.
Lemma quad_scale n xs ws f a b I k : In (n, xs, ws) gl_rules -> quad (n, xs, ws) f a b = Ok I -> quad (n, xs, ws) (fun x => u <- f x ;; Ok (k * u)) a b = Ok (k * I).
Proof.
  intros HR HI. pose proof (C26_linear _ f f a b I I k 0 HR HI HI) as H. replace (k * I) with (k * I + 0 * I) by ring. rewrite <- H. unfold quad. apply gl_ext. intros x _.
  destruct (f x); cbn [bind]; [|reflexivity]. f_equal. ring.
Qed.

Lemma energy_ratio i : (S i < 600)%nat -> energy (S i) = energy 1 / energy 0 * energy i.
Proof.
  intros I. pose proof (gval_ratio 600 (-3) 7 (INR i)) as Q1. pose proof (gval_ratio 600 (-3) 7 (INR 0)) as Q0. rewrite !energy_G by lia. rewrite S_INR. replace (INR 1) with (INR 0 + 1) by (cbn; ring).
  rewrite Q0, <- Q1. field. apply Rgt_not_eq, gval_pos.
Qed.
Lemma energy_step i : (S i < 600)%nat -> energy (S i) <= 1.04 * energy i.
Proof. intros I. rewrite !energy_G by lia. apply (library_fine i); apply at_gval; lia. Qed.
Lemma energy_le i j : (i <= j)%nat -> (j < 600)%nat -> energy i <= energy j.
Proof. induction 1 as [|j H IH]; intros J; [lra|]. pose proof (energy_incr j J). specialize (IH ltac:(lia)). lra. Qed.

Lemma slow_chords N A f l : (N < 600)%nat -> table (scaled_integral A f) (et_values (energy_table (F:=R))) = Ok l -> 0 < A -> slow_upto N f ->
  (forall i, (i < N)%nat -> 0 < chord_slope energy_table l i) /\
  (forall i, (S i < N)%nat -> chord_slope energy_table l (S i) <= 1.3 * chord_slope energy_table l i /\ chord_slope energy_table l i <= 1.3 * chord_slope energy_table l (S i)).
Proof.
  intros NN HT A0 [SP SL]. apply scaled_nth in HT. destruct HT as (_ & _ & ND). destruct C26_library as [IN LIB].
  assert (POS : forall i, (i < N)%nat -> exists r, quad (8%nat, GL8_x, GL8_w) f (energy i) (energy (S i)) = Ok r /\ nth (S i) l 0 - nth i l 0 = A * r /\ 0 < r).
  { intros i IN0. assert (I : (S i < 600)%nat) by lia. destruct (ND i I) as (r & E & D). rewrite LIB in E. exists r. split; [exact E|]. split; [exact D|].
    refine (C26_positive _ _ _ _ _ IN (energy_incr i I) _ E). intros x u X U. apply (SP x u); [|exact U]. pose proof (energy_le 0 i ltac:(lia) ltac:(lia)). pose proof (energy_le (S i) N ltac:(lia) ltac:(lia)). lra. }
  assert (SLOPE : forall i r, nth (S i) l 0 - nth i l 0 = A * r -> chord_slope energy_table l i = A * r / (energy (S i) - energy i)).
  { intros i r D. unfold chord_slope. rewrite D. reflexivity. }
  split.
  - intros i I. destruct (POS i I) as (r & _ & D & P). rewrite (SLOPE i r D). pose proof (energy_incr i ltac:(lia)). apply Rdiv_lt_0_compat; [apply Rmult_lt_0_compat; assumption|lra].
  - intros i I. destruct (POS i ltac:(lia)) as (r & E & D & P). destruct (POS (S i) I) as (r' & E' & D' & P'). rewrite (SLOPE i r D), (SLOPE (S i) r' D'). clear POS SLOPE ND D D'.
    pose proof (energy_incr i ltac:(lia)) as L1. pose proof (energy_incr (S i) ltac:(lia)) as L2. pose proof (energy_pos 0 ltac:(lia)) as P0. pose proof (energy_incr 0 ltac:(lia)) as L0. pose proof (energy_step 0 ltac:(lia)) as ST.
    pose proof (energy_le 0 i ltac:(lia) ltac:(lia)) as B0. pose proof (energy_le (S (S i)) N ltac:(lia) ltac:(lia)) as B1.
    rewrite (energy_ratio (S i) ltac:(lia)), (energy_ratio i ltac:(lia)) in *. set (q := energy 1 / energy 0) in *.
    assert (Q1 : 1 < q) by (apply (Rmult_lt_reg_r (energy 0)); [exact P0|]; unfold q; replace (energy 1 / energy 0 * energy 0) with (energy 1) by (field; lra); lra).
    assert (Q2 : q <= 1.04) by (apply (Rmult_le_reg_r (energy 0)); [exact P0|]; unfold q; replace (energy 1 / energy 0 * energy 0) with (energy 1) by (field; lra); lra).
    set (a := energy i) in *. assert (AP : 0 < a) by lra. clearbody a q.
    replace (q * (q * a)) with (q * (q * a)) in E' by ring. destruct (quad_dilate 8 GL8_x GL8_w f q a (q * a) r' IN E') as (J & EJ & ->).
    replace (q * (q * a) - q * a) with (q * (q * a - a)) by ring. replace (A * (q * J) / (q * (q * a - a))) with (A / (q * a - a) * J) by (field; split; lra).
    replace (A * r / (q * a - a)) with (A / (q * a - a) * r) by (field; lra).
    assert (K : 0 < A / (q * a - a)) by (apply Rdiv_lt_0_compat; lra). set (k := A / (q * a - a)) in *. clearbody k.
    assert (NEAR : forall x u v, a < x < q * a -> f x = Ok u -> f (q * x) = Ok v -> v <= 1.3 * u /\ u <= 1.3 * v).
    { intros x u v X U V. assert (X0 : 0 < x) by lra. assert (x < q * x) by (assert (0 < (q - 1) * x) by (apply Rmult_lt_0_compat; lra); lra). assert (q * x <= 1.04 * x) by (apply Rmult_le_compat_r; lra).
      assert (q * x < q * (q * a)) by (apply Rmult_lt_compat_l; lra). apply (SL x (q * x) u v); try assumption; lra. }
    assert (J1 : J <= 1.3 * r).
    { refine (C26_monotone _ _ _ _ _ _ _ IN (Rlt_le _ _ L1) _ EJ (quad_scale _ _ _ _ _ _ _ 1.3 IN E)). intros x u v X U V. cbn beta in U. destruct (f x) as [w|] eqn:W; cbn [bind] in V; [|discriminate]. injection V as <-. apply (NEAR x w u X W U). }
    assert (J2 : r <= 1.3 * J).
    { refine (C26_monotone _ _ _ _ _ _ _ IN (Rlt_le _ _ L1) _ E (quad_scale _ _ _ _ _ _ _ 1.3 IN EJ)). intros x u v X U V. destruct (f (q * x)) as [w|] eqn:W; cbn [bind] in V; [|discriminate]. injection V as <-. apply (NEAR x u w X U W). }
    apply (Rmult_le_compat_l k) in J1, J2; lra.
Qed.
Theorem C65_slow_density A f l : table (scaled_integral A f) (et_values (energy_table (F:=R))) = Ok l -> 0 < A -> slow f -> gentle energy_table l.
Proof.
  intros HT A0 SL. destruct (slow_chords 599 A f l ltac:(lia) HT A0 SL) as [C1 C2]. unfold gentle. change (et_n energy_table) with 600%nat. split; intros i I; [apply C1; lia|apply C2; lia].
Qed.
Print Assumptions C65_slow_density.
(** a density that varies slowly up to some energy, and from there on is not negative and at most U: the density is at least L around the
    grid energy number j, and U is at most 0.3 * 1.3^m times L *)
Theorem C65_slow_density_below A f l j m U L : table (scaled_integral A f) (et_values (energy_table (F:=R))) = Ok l -> 0 < A -> (S (j + m) < 600)%nat -> slow_upto (S (j + m)) f ->
  (forall x u, energy (j + m) < x < energy 599 -> f x = Ok u -> 0 <= u <= U) -> (forall x u, energy j < x < energy (S j) -> f x = Ok u -> L <= u) -> U <= 0.3 * 1.3 ^ m * L -> gentle_below energy_table l j m.
Proof.
  intros HT A0 JM SL HU HL UL. destruct (slow_chords (S (j + m)) A f l JM HT A0 SL) as [C1 C2]. unfold gentle_below. change (et_n energy_table) with 600%nat.
  split; [exact JM|]. split; [intros i I; apply C1; lia|]. split; [intros i I; apply C2; lia|].
  pose proof (scaled_nth A f l HT) as (_ & _ & ND). destruct C26_library as [IN LIB].
  assert (SLOPE : forall i, (S i < 600)%nat -> exists r, quad (8%nat, GL8_x, GL8_w) f (energy i) (energy (S i)) = Ok r /\ chord_slope energy_table l i = A * (r / (energy (S i) - energy i))).
  { intros i I. destruct (ND i I) as (r & E & D). rewrite LIB in E. exists r. split; [exact E|]. unfold chord_slope. rewrite D. fold (energy (S i)) (energy i). pose proof (energy_incr i I). field. lra. }
  assert (CONST : exists W, 0 < W /\ forall k a b, quad (8%nat, GL8_x, GL8_w) (fun _ => Ok k) a b = Ok (k * W * (b - a))).
  { assert (Q1 : forall k, exists I, quad (8%nat, GL8_x, GL8_w) (fun _ => Ok k) (-1) 1 = Ok I) by (intros k; eexists; apply quad_total; [exact IN|intros; reflexivity]).
    destruct (Q1 1) as (I & E). exists (I / 2). split; [assert (P : 0 < I); [|lra]; refine (C26_positive _ (fun _ => Ok 1) (-1) 1 I IN _ _ E); [lra|intros x u _ Q; injection Q as <-; lra]|].
    intros k a b. pose proof (quad_scale _ _ _ _ _ _ _ k IN E) as E2. cbn [bind] in E2. rewrite Rmult_1_r in E2. rewrite (C26_affine _ (fun _ => Ok k) a b (k * I) IN E2). f_equal. field. }
  destruct CONST as (W & W0 & CONST).
  destruct (SLOPE j ltac:(lia)) as (rj & Ej & Sj).
  assert (LJ : L * W <= rj / (energy (S j) - energy j)).
  { pose proof (energy_incr j ltac:(lia)) as EI. apply (Rmult_le_reg_r (energy (S j) - energy j)); [lra|]. replace (rj / (energy (S j) - energy j) * (energy (S j) - energy j)) with rj by (field; lra).
    refine (C26_monotone _ _ _ _ _ _ _ IN (Rlt_le _ _ EI) _ (CONST L _ _) Ej). intros x u v X Q V. injection Q as <-. exact (HL x v X V). }
  intros i I1 I2. destruct (SLOPE i I2) as (ri & Ei & Si). rewrite Si, Sj. pose proof (energy_incr i I2) as EI.
  assert (B : forall x u, energy i < x < energy (S i) -> f x = Ok u -> 0 <= u <= U).
  { intros x u X. apply HU. pose proof (energy_le (j + m) i ltac:(lia) ltac:(lia)). pose proof (energy_le (S i) 599 ltac:(lia) ltac:(lia)). lra. }
  assert (UI : ri / (energy (S i) - energy i) <= U * W).
  { apply (Rmult_le_reg_r (energy (S i) - energy i)); [lra|]. replace (ri / (energy (S i) - energy i) * (energy (S i) - energy i)) with ri by (field; lra).
    refine (C26_monotone _ _ _ _ _ _ _ IN (Rlt_le _ _ EI) _ Ei (CONST U _ _)). intros x u v X V Q. injection Q as <-. apply (B x u X V). }
  assert (UP : 0 <= ri / (energy (S i) - energy i)).
  { apply (Rmult_le_reg_r (energy (S i) - energy i)); [lra|]. replace (ri / (energy (S i) - energy i) * (energy (S i) - energy i)) with ri by (field; lra). assert (ZZ : 0 * W * (energy (S i) - energy i) <= ri); [|lra].
    refine (C26_monotone _ _ _ _ _ _ _ IN (Rlt_le _ _ EI) _ (CONST 0 _ _) Ei). intros x u v X Q V. injection Q as <-. apply (B x v X V). }
  split; [apply Rmult_le_pos; lra|]. set (a := ri / _) in *. set (b := rj / _) in *. clearbody a b. clear - A0 LJ UI UL W0.
  pose proof (pow_lt 1.3 m ltac:(lra)) as P. set (k := 1.3 ^ m) in *. clearbody k. assert (0.3 * k * (L * W) <= 0.3 * k * b) by (apply Rmult_le_compat_l; lra). apply (Rmult_le_compat_r W) in UL; [|lra].
  replace (0.3 * k * (A * b)) with (A * (0.3 * k * b)) by ring. apply Rmult_le_compat_l; lra.
Qed.
Print Assumptions C65_slow_density_below.

(** the range table: the stopping power is positive and changes by at most 30 percent where the energy changes by at most 4 percent *)
Definition slow_stopping (p : Projectile R) (t : Material R) (c : Config R) : Prop :=
  (forall x d, energy 0 < x < energy 599 -> dedx (at_T p x) t c = Ok d -> 0 < d) /\
  (forall x z d e, energy 0 < x -> x < z -> z <= 1.04 * x -> z < energy 599 -> dedx (at_T p x) t c = Ok d -> dedx (at_T p z) t c = Ok e -> e <= 1.3 * d /\ d <= 1.3 * e).
Lemma inv_within a b : 0 < a -> 0 < b -> a <= 1.3 * b -> / b <= 1.3 * / a.
Proof.
  intros A B H. apply (Rmult_le_reg_r b); [exact B|]. apply (Rmult_le_reg_l a); [exact A|]. replace (a * (/ b * b)) with a by (field; lra). replace (a * (1.3 * / a * b)) with (1.3 * b) by (field; lra). exact H.
Qed.
Theorem C65_slow_stopping p t c rt : range_table p t c = Ok rt -> 0 < pA p -> slow_stopping p t c -> gentle energy_table rt.
Proof.
  intros HT A [SP SL]. apply (C65_slow_density (pA p) (fdedx p t c) rt HT A). unfold fdedx. split.
  - intros x u X U. destruct (dedx (at_T p x) t c) as [d|] eqn:D; cbn [bind] in U; [|discriminate]. revert U. numR. replace (Rlit 1.0) with 1 by (dec_norm; lra). intros U. injection U as <-.
    apply Rdiv_lt_0_compat; [lra|]. exact (SP x d X D).
  - intros x z u v X0 XZ Z1 Z0 U V. destruct (dedx (at_T p x) t c) as [d|] eqn:D; cbn [bind] in U; [|discriminate]. destruct (dedx (at_T p z) t c) as [e|] eqn:E; cbn [bind] in V; [|discriminate].
    revert U V. numR. replace (Rlit 1.0) with 1 by (dec_norm; lra). intros U V. injection U as <-. injection V as <-. destruct (SL x z d e X0 XZ Z1 Z0 D E) as [S1 S2].
    assert (0 < d) by (apply (SP x d); [lra|exact D]). assert (0 < e) by (apply (SP z e); [lra|exact E]). unfold Rdiv. rewrite !Rmult_1_l. split; apply inv_within; assumption.
Qed.
Print Assumptions C65_slow_stopping.

(** ** After any calls *)
Section Api.
  Variable junk : nat -> R * R.
  (** what the allocator left in the two unset cells of the matrix *)
  Hypothesis small : forall k, Rabs (fst (junk k)) < 2 /\ Rabs (snd (junk k)) < 2.
  Variables (h : list (call R)) (w : world R).
  Hypothesis past : exec_all junk h world0 = Ok w.
  Variables (p : Projectile R) (t : Material R) (c : Config R).
  Hypothesis LP : legit_p p.
  Hypothesis LT : legit_t t.

  Lemma lookup_splines d w' : lookup junk p t c w = Ok (d, w') ->
    range_table p t c = Ok (dp_range d) /\ straggling_table p t c = Ok (dp_rs d) /\
    exists k s k' s', make_spline energy_table (dp_range d) (junk k) = Ok s /\ dp_range_spline d = Some s /\ make_spline energy_table (dp_rs d) (junk k') = Ok s' /\ dp_rs_spline d = Some s'.
  Proof.
    intros L. pose proof (legit_not_default p t c LP) as ND.
    destruct (C01_tables junk h w p t c d w' past) as [RT ST]; [intros KE; apply (key_match_R p t c DataPoint0) in KE; congruence|exact L|].
    split; [exact RT|]. split; [exact ST|].
    assert (MK : forall k p t c, rcalc junk calculate_DataPoint k p t c = Ok d -> exists k s k' s', make_spline energy_table (dp_range d) (junk k) = Ok s /\ dp_range_spline d = Some s /\ make_spline energy_table (dp_rs d) (junk k') = Ok s' /\ dp_rs_spline d = Some s').
    { intros k p0 t0 c0 Q. unfold rcalc in Q. apply bind_ok in Q. destruct Q as (d1 & _ & Q). unfold with_splines in Q.
      apply bind_ok in Q. destruct Q as (s1 & S1 & Q). apply bind_ok in Q. destruct Q as (s2 & S2 & Q). apply bind_ok in Q. destruct Q as (s3 & S3 & Q).
      injection Q as <-. eexists _, s1, _, s2. split; [exact S1|]. split; [reflexivity|]. split; [first [exact S2|exact S3]|reflexivity]. }
    pose proof (inv_exec_all junk (fun _ _ _ => True) (fun _ _ _ _ _ => I) (fun _ _ _ _ _ => I) h world0 w (inv_world0 junk _)) as IV.
    destruct IV as [W V]; [apply Forall_forall; intros q _; apply Forall_forall; intros; exact I|exact past|].
    unfold lookup in L.
    destruct (get_spec junk calculate_DataPoint w p t c W) as [(i & e & G & Hi & EI & M)|(NM & [(why & Q & G)|(d' & Q & G & EI)])];
      rewrite G in L; cbn [bind] in L; try discriminate; unfold slot in L; rewrite EI in L; cbn [bind] in L.
    - assert (e = d) by congruence. subst e. rewrite Forall_forall in V. destruct (V d (nth_error_In _ _ EI)) as [->|[_ (k & CE)]]; [congruence|].
      exact (MK _ _ _ _ CE).
    - assert (d' = d) by congruence. subst d'. exact (MK _ _ _ _ Q).
  Qed.

  Variables rt st : list R.
  Hypothesis RT : range_table p t c = Ok rt.
  Hypothesis RG : gentle energy_table rt.
  Lemma wf_w : wf w. Proof. exact (exec_all_wf junk h w past). Qed.
  Lemma range_spline_made d w' : lookup junk p t c w = Ok (d, w') -> exists k s, make_spline (et_make 600 (-3) 7) rt (junk k) = Ok s /\ dp_range_spline d = Some s.
  Proof.
    intros L. destruct (lookup_splines d w' L) as (QR & _ & k & s & _ & _ & M & E & _). rewrite RT in QR. injection QR as QR. rewrite <- QR in M. exists k, s. rewrite energy_table_eq in M. split; [exact M|exact E].
  Qed.
  Lemma range_far d w' x z : lookup junk p t c w = Ok (d, w') -> x + 20 * numeric_epsilon <= z -> exists u v, interp_eval (dp_range_spline d) x = Ok u /\ interp_eval (dp_range_spline d) z = Ok v /\ u < v.
  Proof.
    intros L XZ. destruct (range_spline_made d w' L) as (k & s & M & E). rewrite E. cbn [interp_eval]. destruct (small k) as [J0 J1]. pose proof RG as G. rewrite energy_table_eq in G.
    exact (C65_increasing_far 600 (-3) 7 ltac:(lia) ltac:(lia) ltac:(lra) library_fine rt (junk k) s J0 J1 M G x z XZ).
  Qed.
  Lemma range_deriv_pos d w' x : lookup junk p t c w = Ok (d, w') -> exists u, interp_deriv (dp_range_spline d) x = Ok u /\ 0 < u.
  Proof.
    intros L. destruct (range_spline_made d w' L) as (k & s & M & E). rewrite E. cbn [interp_deriv]. destruct (small k) as [J0 J1]. pose proof RG as G. rewrite energy_table_eq in G.
    destruct (C65_derivative 600 (-3) 7 ltac:(lia) ltac:(lia) ltac:(lra) library_fine rt (junk k) s J0 J1 M G x) as (u & i & D & _ & _ & _ & P & B). exists u. split; [exact D|lra].
  Qed.
  Hypothesis ST : straggling_table p t c = Ok st.
  Variables j m : nat.
  Hypothesis SG : gentle_below energy_table st j m.
  Lemma rs_spline_made d w' : lookup junk p t c w = Ok (d, w') -> exists k s, make_spline (et_make 600 (-3) 7) st (junk k) = Ok s /\ dp_rs_spline d = Some s.
  Proof.
    intros L. destruct (lookup_splines d w' L) as (_ & QR & _ & _ & k & s & _ & _ & M & E). rewrite ST in QR. injection QR as QR. rewrite <- QR in M. exists k, s. rewrite energy_table_eq in M. split; [exact M|exact E].
  Qed.
  Lemma rs_far d w' x z : lookup junk p t c w = Ok (d, w') -> x + 20 * numeric_epsilon <= z -> z <= energy j -> exists u v, interp_eval (dp_rs_spline d) x = Ok u /\ interp_eval (dp_rs_spline d) z = Ok v /\ u < v.
  Proof.
    intros L XZ ZJ. assert (JN : (j < 600)%nat) by (destruct SG as [N _]; change (et_n energy_table) with 600%nat in N; lia). rewrite energy_G in ZJ by exact JN. destruct (rs_spline_made d w' L) as (k & s & M & E). rewrite E. cbn [interp_eval]. destruct (small k) as [J0 J1]. pose proof SG as G. rewrite energy_table_eq in G.
    exact (C65_increasing_below 600 (-3) 7 ltac:(lia) ltac:(lia) ltac:(lra) library_fine st (junk k) s J0 J1 M j m G x z XZ ZJ).
  Qed.
  Lemma rs_deriv_pos d w' x : lookup junk p t c w = Ok (d, w') -> x <= energy j -> exists u, interp_deriv (dp_rs_spline d) x = Ok u /\ 0 < u.
  Proof.
    intros L ZJ. assert (JN : (j < 600)%nat) by (destruct SG as [N _]; change (et_n energy_table) with 600%nat in N; lia). rewrite energy_G in ZJ by exact JN. destruct (rs_spline_made d w' L) as (k & s & M & E). rewrite E. cbn [interp_deriv]. destruct (small k) as [J0 J1]. pose proof SG as G. rewrite energy_table_eq in G.
    destruct (C65_derivative_below 600 (-3) 7 ltac:(lia) ltac:(lia) ltac:(lra) library_fine st (junk k) s J0 J1 M j m G x ZJ) as (u & i & D & _ & _ & _ & P & B). exists u. split; [exact D|lra].
  Qed.
End Api.

(** the two unset cells of the matrix: what the allocator left there is smaller than the diagonal *)
Definition small_junk (junk : nat -> R * R) : Prop := forall k, Rabs (fst (junk k)) < 2 /\ Rabs (snd (junk k)) < 2.

(** *** range: of two energies that differ by at least 20 tolerances the larger has the larger range, whichever is asked for first *)
Theorem C65_range junk h w p t c rt T1 T2 r1 w1 r2 w2 : small_junk junk -> exec_all junk h world0 = Ok w -> legit_p p -> range_table p t c = Ok rt -> gentle energy_table rt ->
  range junk (at_T p T1) t c w = Ok (r1, w1) -> range junk (at_T p T2) t c w1 = Ok (r2, w2) ->
  (T1 + 20 * numeric_epsilon <= T2 -> r1 < r2) /\ (T2 + 20 * numeric_epsilon <= T1 -> r2 < r1).
Proof.
  intros SJ EH LP RT RG H1 H2. pose proof (exec_all_wf junk h w EH) as W. unfold range in H1, H2. apply bind_ok in H1. destruct H1 as ([d w3] & L & H1). apply bind_ok in H1. destruct H1 as (x1 & V1 & H1). apply ok_inj in H1. apply pair_equal_spec in H1. destruct H1 as [<- <-].
  pose proof (laterE junk (at_T p T1) t c w d w3 W L T2) as L2. change (at_T (at_T p T1) T2) with (at_T p T2) in L2. rewrite L2 in H2. cbn [bind] in H2. apply bind_ok in H2. destruct H2 as (x2 & V2 & H2). apply ok_inj in H2. apply pair_equal_spec in H2. destruct H2 as [<- _].
  change (pT (at_T p T1)) with T1 in V1. change (pT (at_T p T2)) with T2 in V2.
  pose proof (range_far junk SJ h w EH (at_T p T1) t c (legit_at _ _ LP) rt RT RG d w3) as RF. split; intros H.
  - destruct (RF T1 T2 L H) as (u & v & U & V & LT). congruence.
  - destruct (RF T2 T1 L H) as (u & v & U & V & LT). congruence.
Qed.
Print Assumptions C65_range.

(** *** the stopping power read off the slope of the range spline is positive at every energy *)
Theorem C65_dedx_from_range junk h w p t c rt d w' : small_junk junk -> exec_all junk h world0 = Ok w -> legit_p p -> range_table p t c = Ok rt -> gentle energy_table rt ->
  dedx_from_range junk p t c w = Ok (d, w') -> 0 < d.
Proof.
  intros SJ EH LP RT RG H. unfold dedx_from_range in H. apply bind_ok in H. destruct H as ([dp w1] & L & H). apply bind_ok in H. destruct H as (r & D & H).
  apply ok_inj in H. apply pair_equal_spec in H. destruct H as [<- _]. destruct (range_deriv_pos junk SJ h w EH p t c LP rt RT RG dp w1 (pT p) L) as (u & U & P). assert (u = r) by congruence. subst u.
  numR. apply Rdiv_lt_0_compat; [apply LP|exact P].
Qed.
Print Assumptions C65_dedx_from_range.

(** *** a layer thicker than the tolerance of the search slows the ion down *)
Theorem C65_energy_out junk h w p t c rt e w' : small_junk junk -> exec_all junk h world0 = Ok w -> legit_p p -> range_table p t c = Ok rt -> gentle energy_table rt ->
  1 / 100000 <= m_th t -> energy_out junk p t c w = Ok (e, w') -> e <> 0 -> e <> -1 -> e < pT p + 20 * numeric_epsilon.
Proof.
  intros SJ EH LP RT RG TH H E0 E1. pose proof (exec_all_wf junk h w EH) as W. destruct (C08_api junk h w p t c e w' EH H) as (rT & R1 & [[_ Q]|[_ [Q|[Q|(re & R2 & B)]]]]); try contradiction.
  apply Rnot_le_lt. intros LE. assert (EH' : exec_all junk (h ++ [CEnergyOut p t c]) world0 = Ok w') by (eapply exec_all_snoc; [exact EH|]; unfold exec, one; rewrite H; reflexivity).
  destruct (C65_range junk _ w' p t c rt (pT p) e rT w' re w' SJ EH' LP RT RG) as [C _]; [rewrite same_p; exact R1|exact R2|]. specialize (C LE). apply Rabs_def2 in B. lra.
Qed.
Print Assumptions C65_energy_out.

(** *** energy straggling: behind a layer in which an ion of at most the grid energy number j lost energy the argument of the square root is positive, and so is the result *)
Theorem C65_sigma_E junk h w p t c rt st j m r w' : small_junk junk -> exec_all junk h world0 = Ok w -> legit_p p ->
  range_table p t c = Ok rt -> gentle energy_table rt -> straggling_table p t c = Ok st -> gentle_below energy_table st j m -> pT p <= energy j ->
  1 / 1000 - 10 / 4503599627370496 <= pT p -> m_th t <> 0 -> calculate junk p t c w = Ok (r, w') -> 1 / 1000 <= r_Eout r < pT p -> 0 < r_dEdxo r /\ 0 < r_sigma_E r.
Proof.
  intros SJ EH LP RT RG ST SG TJ HT TH H EB. pose proof (exec_all_wf junk h w EH) as W. destruct (result_inv junk p t c w r w' W HT TH H) as (d & L & _ & _ & _ & X & _).
  destruct (X ltac:(lra)) as (do_ & DO & DE & SE & _). clear X. assert (EH' : exec_all junk (h ++ [CCalculate p t c]) world0 = Ok w') by (eapply exec_all_snoc; [exact EH|]; unfold exec; rewrite H; reflexivity).
  assert (L0 : lookup junk p t c w' = Ok (d, w')) by (rewrite <- (same_p p), <- (same_t t); apply L). destruct LP as [LZ LA].
  assert (PA : 0 < pA p) by lra. destruct (range_deriv_pos junk SJ _ w' EH' p t c (conj LZ LA) rt RT RG d w' (r_Eout r) L0) as (u & U & UP). assert (u = do_) by congruence. subst u.
  assert (D0 : 0 < r_dEdxo r) by (rewrite DE; apply Rdiv_lt_0_compat; assumption). split; [exact D0|].
  assert (TL : thin_target_limit (F:=R) = 0.999) by (unfold thin_target_limit; numR; dec_norm; lra).
  unfold sigma_E_of in SE. rewrite TL in SE. revert SE. numR. intros SE. pose proof eps_small as ES. destruct (Rltb_spec (0.999 * pT p) (r_Eout r)) as [C|C].
  - apply bind_ok in SE. destruct SE as (s1 & S1 & SE). apply bind_ok in SE. destruct SE as (s2 & S2 & SE). apply ok_inj in SE. rewrite <- SE.
    destruct (rs_deriv_pos junk SJ _ w' EH' p t c (conj LZ LA) st ST j m SG d w' (pT p) L0 TJ) as (u1 & U1 & P1). destruct (rs_deriv_pos junk SJ _ w' EH' p t c (conj LZ LA) st ST j m SG d w' (r_Eout r) L0 ltac:(lra)) as (u2 & U2 & P2).
    assert (u1 = s1) by congruence. assert (u2 = s2) by congruence. subst u1 u2. replace (Rlit 0.5) with (1 / 2) by (dec_norm; lra).
    apply Rdiv_lt_0_compat; [|exact PA]. apply Rmult_lt_0_compat; [exact D0|]. apply sqrt_lt_R0. apply Rmult_lt_0_compat; [apply Rmult_lt_0_compat; lra|lra].
  - apply bind_ok in SE. destruct SE as (s1 & S1 & SE). apply bind_ok in SE. destruct SE as (s2 & S2 & SE). apply ok_inj in SE. rewrite <- SE.
    assert (FAR : r_Eout r + 20 * numeric_epsilon <= pT p) by lra.
    destruct (rs_far junk SJ _ w' EH' p t c (conj LZ LA) st ST j m SG d w' _ _ L0 FAR TJ) as (u2 & u1 & U2 & U1 & LT). assert (u1 = s1) by congruence. assert (u2 = s2) by congruence. subst u1 u2.
    apply Rdiv_lt_0_compat; [|exact PA]. apply Rmult_lt_0_compat; [exact D0|]. apply sqrt_lt_R0. lra.
Qed.
Print Assumptions C65_sigma_E.

(** ** A concrete case: a stopping power proportional to the energy; the table of 12 times its inverse, from which increasing splines are made *)
Example C65_density_case : exists l s, table (scaled_integral 12 (fun x => Ok (1 / (5 * x)))) (et_values (energy_table (F:=R))) = Ok l /\ gentle energy_table l /\
  make_spline energy_table l (1, 1) = Ok s /\ forall x z, x + 20 * numeric_epsilon <= z -> exists u v, spline_eval s x = Ok u /\ spline_eval s z = Ok v /\ u < v.
Proof.
  set (f := fun x : R => Ok (1 / (5 * x))).
  assert (SL : slow f).
  { pose proof (energy_pos 0 ltac:(lia)) as P0. split.
    - intros x u X U. injection U as <-. apply Rdiv_lt_0_compat; lra.
    - intros x z u v X XZ ZX _ U V. injection U as <-. injection V as <-. split; apply (Rmult_le_reg_l (5 * x * z)); try (apply Rmult_lt_0_compat; lra); field_simplify; lra. }
  assert (TB : exists l, table (scaled_integral 12 f) (et_values (energy_table (F:=R))) = Ok l).
  { destruct (table_ok (scaled_integral 12 f)) as (l & TB & _); [|exists l; exact TB]. intros a b _. unfold scaled_integral. destruct C26_library as [IN LIB]. rewrite LIB, (quad_total 8 GL8_x GL8_w f a b IN ltac:(intros; reflexivity)). cbn [bind]. eexists. reflexivity. }
  destruct TB as (l & TB). exists l. pose proof (C65_slow_density 12 f l TB ltac:(lra) SL) as G. pose proof (scaled_nth 12 f l TB) as (LL & _ & _).
  rewrite energy_table_eq. destruct (C20_defined 600 (-3) 7 l (1, 1)) as [s Hs]; [lia|lia|]. exists s. split; [rewrite <- energy_table_eq; exact TB|]. rewrite energy_table_eq in G. split; [exact G|]. split; [exact Hs|].
  assert (J : Rabs 1 < 2) by (rewrite Rabs_pos_eq; lra). intros x z XZ.
  exact (C65_increasing_far 600 (-3) 7 ltac:(lia) ltac:(lia) ltac:(lra) library_fine l (1, 1) s J J Hs G x z XZ).
Qed.
