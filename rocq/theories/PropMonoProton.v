(** * Property C65 for protons in nitrogen: the range increases with the energy and the slope of its spline is positive *)
From Coq Require Import ZArith Reals List Bool Lra Lia.
From Verif Require Import Num NumR Structures DataQuadrature EnergyTable Spline Integrator Srim Calculations Storage Catima Cases CacheProofs CacheFresh History KeyEq ApiCache
  EnergyOutProofs GridProofs QuadProofs TotalProofs ApiTotal LayerProofs PropGrid PropSpline PropQuad PropTables PropCache PropEnergyOut PropResult PropApi PropKin PropMono PropMonoApi PropDedx BoundsProofs Near ProtonStopping ProtonLindhard ProtonHigh ProtonBethe.
Import ListNotations.
Local Open Scope R_scope.

(** ** The blend of the two formulas between 10 and 30 MeV *)
Definition low (T : R) : R := 100 * (sez T / 14) * Avogadro.
Section Settings.
Variable c : Config R.
Hypothesis HZ : c_zeff c = z_none \/ c_zeff c = z_pierce_blann.
Hypothesis HL : (c_low c =? srim_95)%Z = false.
Definition blend (T : R) : R := if Rle_dec T 10 then low T else if Rlt_dec T 30 then (1 - 1 / 20 * (T - 10)) * low T + 1 / 20 * (T - 10) * full c T else full c T.
Lemma dedx_value rho th T : 0 < T -> (10 < T -> inside c T) -> dedx (proton_at T) (gas rho th) c = Ok (dedx_n (F:=R) (proton_at T) (gas rho th) + blend T).
Proof.
  intros T0 IN. unfold dedx, blend. cbn [proton_at pT]. fold (proton_at T). numR. replace (Rlit 0) with 0 by (dec_norm; lra). replace (Rlit 10) with 10 by (dec_norm; lra). replace (Rlit 30) with 30 by (dec_norm; lra).
  destruct (Rleb_spec T 0) as [C|_]; [lra|]. destruct (Rleb_spec T 10) as [A|A]; destruct (Rle_dec T 10) as [B|B]; try contradiction.
  - rewrite low_value by assumption. cbn [bind]. f_equal. unfold low. ring.
  - specialize (IN ltac:(lra)). destruct (Rltb_spec 10 T) as [_|C]; [|lra]. destruct (Rltb_spec T 30) as [C|C]; destruct (Rlt_dec T 30) as [D|D]; try contradiction; cbn [andb].
    + rewrite low_value, (high_value c HZ) by assumption. cbn [bind]. f_equal. unfold low. replace (Rlit 0.05) with (1 / 20) by (dec_norm; lra). replace (Rlit 10.0) with 10 by (dec_norm; lra). replace (Rlit 1) with 1 by (dec_norm; lra). ring.
    + rewrite (high_value c HZ) by assumption. cbn [bind]. f_equal. ring.
Qed.
(** a value at an energy below the end of the table means that the tables were read within their bounds *)
Lemma value_inside rho th T d : 10 <= T -> T < exp (LN10_ (F:=R) * 7) -> dedx (proton_at T) (gas rho th) c = Ok d -> inside c T.
Proof.
  intros T10 TE D. split; [exact T10|]. intros NL. apply Rnot_le_lt. intros H. destruct (C38_table_end_refuted (proton_at T) (gas rho th) c) as [C _].
  - cbn [proton_at pZ]. lra.
  - discriminate.
  - intros t [<-|[]]. cbn [nitrogen tZ]. lia.
  - unfold just_below_table_end. cbv zeta. cbn [proton_at pT]. unfold ls_glast in H. rewrite glast_val in H by (lia || lra). split; [exact H|exact TE].
  - rewrite (C NL) in D. discriminate.
Qed.
Lemma Avogadro_val : Avogadro (F:=R) = 6022140857 / 1000000000.
Proof. unfold Avogadro. numR. dec_norm. lra. Qed.
Lemma low_near x z : 0 < x -> x <= z -> z <= 104 / 100 * x -> near (1145 / 1000) (low x) (low z).
Proof.
  intros X XZ ZX. unfold low. rewrite Avogadro_val. pose proof (sez_near x z X XZ ZX) as N.
  replace (100 * (sez x / 14) * (6022140857 / 1000000000)) with (6022140857 / 140000000 * sez x) by field. replace (100 * (sez z / 14) * (6022140857 / 1000000000)) with (6022140857 / 140000000 * sez z) by field. apply near_scale; [lra|exact N].
Qed.
Lemma full_high T : T <= 50000 -> full c T = high c T.
Proof. intros H. unfold full. destruct (Rltb_spec 50000 T); [lra|reflexivity]. Qed.
Lemma low_high T : 10 <= T <= 30 -> inside c T -> near 2 (low T) (full c T).
Proof.
  intros H IN. rewrite full_high by lra. pose proof (sez_size T H) as S. pose proof (high_size c HZ T H IN) as B. unfold low. rewrite Avogadro_val. set (s := sez T) in *. set (b := high c T) in *. clearbody s b.
  assert (0 < s) by nra. assert (0 < b) by nra. repeat split; try lra; apply (Rmult_le_reg_l T); lra.
Qed.
Lemma mix_near f g s b s' b' : 0 <= f -> f <= g -> g <= 1 -> g - f <= 6 / 100 -> near (1145 / 1000) s s' -> near (1145 / 1000) b b' -> near 2 s b -> near 2 s' b' ->
  near (13 / 10) ((1 - f) * s + f * b) ((1 - g) * s' + g * b').
Proof.
  intros F0 FG G1 D (S0 & S1 & SU & SD) (B0 & B1 & BU & BD) (_ & _ & C1 & C2) (_ & _ & C3 & C4).
  assert (P : 0 < (1 - f) * s + f * b) by (destruct (Req_dec f 0) as [->|N]; [lra|]; assert (0 < f * b) by nra; assert (0 <= (1 - f) * s) by nra; lra).
  assert (Q : 0 < (1 - g) * s' + g * b') by (destruct (Req_dec g 0) as [->|N]; [lra|]; assert (0 < g * b') by nra; assert (0 <= (1 - g) * s') by nra; lra).
  split; [exact P|]. split; [exact Q|]. split.
  - assert (M : (1 - g) * s' + g * b' <= 1145 / 1000 * ((1 - g) * s + g * b)).
    { replace (1145 / 1000 * ((1 - g) * s + g * b)) with ((1 - g) * (1145 / 1000 * s) + g * (1145 / 1000 * b)) by ring. apply Rplus_le_compat; apply Rmult_le_compat_l; lra. }
    assert (E : (1 - g) * s + g * b = (1 - f) * s + f * b + (g - f) * (b - s)) by ring. assert (K : (g - f) * (b - s) <= 6 / 100 * ((1 - f) * s + f * b)); [|lra].
    destruct (Rle_dec b s) as [L|L]; [assert ((g - f) * (b - s) <= 0) by nra; lra|]. assert (s <= (1 - f) * s + f * b) by nra. assert ((g - f) * (b - s) <= 6 / 100 * s) by nra. lra.
  - assert (M : (1 - f) * s + f * b <= 1145 / 1000 * ((1 - f) * s' + f * b')).
    { replace (1145 / 1000 * ((1 - f) * s' + f * b')) with ((1 - f) * (1145 / 1000 * s') + f * (1145 / 1000 * b')) by ring. apply Rplus_le_compat; apply Rmult_le_compat_l; lra. }
    assert (E : (1 - f) * s' + f * b' = (1 - g) * s' + g * b' + (g - f) * (s' - b')) by ring. assert (K : (g - f) * (s' - b') <= 6 / 100 * ((1 - g) * s' + g * b')); [|lra].
    destruct (Rle_dec s' b') as [L|L]; [assert ((g - f) * (s' - b') <= 0) by nra; lra|]. assert (b' <= (1 - g) * s' + g * b') by nra. assert ((g - f) * (s' - b') <= 6 / 100 * b') by nra. lra.
Qed.
Lemma blend_near x z : 0 < x -> x <= z -> z <= 104 / 100 * x -> z <= 10010000 -> (10 < z -> inside c z) -> near (13 / 10) (blend x) (blend z).
Proof.
  intros X XZ ZX ZE IN. unfold blend. pose proof (low_near x z X XZ ZX) as LN. destruct (Rle_dec x 10) as [A|A]; destruct (Rle_dec z 10) as [B|B]; try lra.
  - apply (near_weaken (1145 / 1000)); [lra|exact LN].
  - specialize (IN ltac:(lra)). destruct (Rlt_dec z 30) as [C|C]; [|lra]. pose proof (low_high z ltac:(lra) IN) as (P1 & P2 & P3 & P4). destruct LN as (L0 & L1 & L2 & L3). set (s := low x) in *. set (s' := low z) in *. set (b := full c z) in *. clearbody s s' b.
    assert (G : 0 < 1 / 20 * (z - 10) <= 2 / 100) by lra. set (g := 1 / 20 * (z - 10)) in *. clearbody g. assert (E : (1 - g) * s' + g * b = s' + g * (b - s')) by ring. rewrite E.
    assert (K : - (2 / 100) * s' <= g * (b - s') <= 2 / 100 * s') by (split; nra). repeat split; lra.
  - specialize (IN ltac:(lra)). pose proof (inside_x c x z ltac:(lra) XZ IN) as INX. destruct (Rlt_dec x 30) as [C|C]; destruct (Rlt_dec z 30) as [D|D]; try lra.
    + pose proof (high_near_low c HZ x z ltac:(lra) XZ ZX ltac:(lra) IN) as HN. apply (near_weaken (1135 / 1000) (1145 / 1000)) in HN; [|lra]. rewrite <- !full_high in HN by lra.
      apply mix_near; try assumption; try lra; apply low_high; lra || assumption.
    + pose proof (high_near_low c HZ x z ltac:(lra) XZ ZX ltac:(lra) IN) as HN. apply (near_weaken (1135 / 1000) (1145 / 1000)) in HN; [|lra]. rewrite <- !full_high in HN by lra.
      pose proof (low_high x ltac:(lra) INX) as (P1 & P2 & P3 & P4). destruct HN as (H0 & H1 & H2 & H3). set (s := low x) in *. set (b := full c x) in *. set (b' := full c z) in *. clearbody s b b'.
      assert (G : 0 < 1 - 1 / 20 * (x - 10) <= 6 / 100) by lra. set (g := 1 - 1 / 20 * (x - 10)) in *. replace (1 / 20 * (x - 10)) with (1 - g) by (unfold g; ring). clearbody g.
      assert (E : g * s + (1 - g) * b = b + g * (s - b)) by ring. rewrite E. assert (K : - (6 / 100) * b <= g * (s - b) <= 6 / 100 * b) by (split; nra). repeat split; lra.
    + apply (near_weaken (128 / 100)); [lra|]. apply full_near; try assumption; lra.
Qed.
End Settings.

(** ** The stopping power of protons in nitrogen meets the hypothesis on the range table

    The effective charge is the default one or switched off, the low-energy fit the default one; the corrections, the other
    settings and the density and thickness of the layer are arbitrary. *)
Definition usual (c : Config R) : Prop := (c_zeff c = z_none \/ c_zeff c = z_pierce_blann) /\ c_low c <> srim_95.
Theorem C65_proton_slow rho th c : usual c -> slow_stopping proton (gas rho th) c.
Proof.
  intros [HZ HL]. apply Z.eqb_neq in HL. assert (EN : energy 599 = exp (LN10_ (F:=R) * 7)) by (rewrite energy_G by lia; unfold gval, gstep; f_equal; rewrite !INR_IZR_INZ; field).
  assert (V : forall x d, 0 < x -> x < energy 599 -> dedx (at_T proton x) (gas rho th) c = Ok d -> d = dedx_n (F:=R) (proton_at x) (gas rho th) + blend c x /\ (10 < x -> inside c x)).
  { intros x d X XE D. change (at_T proton x) with (proton_at x) in D. assert (IN : 10 < x -> inside c x) by (intros H; apply (value_inside c rho th x d); [lra|rewrite <- EN; exact XE|exact D]).
    rewrite (dedx_value c HZ HL rho th x X IN) in D. injection D as <-. split; [reflexivity|exact IN]. }
  pose proof (energy_pos 0 ltac:(lia)) as E0. pose proof end_upper as EU. rewrite <- EN in EU.
  assert (NR : forall x z, 0 < x -> x <= z -> z <= 104 / 100 * x -> z < energy 599 -> (10 < z -> inside c z) -> near (13 / 10) (dedx_n (F:=R) (proton_at x) (gas rho th) + blend c x) (dedx_n (F:=R) (proton_at z) (gas rho th) + blend c z)).
  { intros x z X XZ ZX ZE IN. apply near_plus; [apply (near_weaken (112 / 100)); [lra|apply nuclear_near; assumption]|apply blend_near; try assumption; lra]. }
  split.
  - intros x d X D. destruct (V x d ltac:(lra) ltac:(lra) D) as [-> IN]. destruct (NR x x ltac:(lra) ltac:(lra) ltac:(lra) ltac:(lra) IN) as [P _]. exact P.
  - intros x z d e X XZ ZX ZE D E. destruct (V x d ltac:(lra) ltac:(lra) D) as [-> _]. destruct (V z e ltac:(lra) ZE E) as [-> IN]. destruct (NR x z ltac:(lra) ltac:(lra) ltac:(lra) ZE IN) as (_ & _ & P1 & P2). lra.
Qed.
Print Assumptions C65_proton_slow.
Lemma usual_default : usual conf.
Proof. split; [right; reflexivity|discriminate]. Qed.

Lemma proton_legit : legit_p proton.
Proof. unfold legit_p, proton. cbn. lra. Qed.
Lemma gas_legit rho th : legit_t (gas rho th).
Proof. unfold legit_t, gas, nitrogen. cbn [m_atoms]. constructor; [cbn [tZ tA]; split; [lia|lra]|constructor]. Qed.
Lemma proton_table rho th c : usual c -> exists rt, range_table proton (gas rho th) c = Ok rt /\ gentle energy_table rt.
Proof.
  intros U. destruct (range_table_ok proton (gas rho th) c (legit_key _ _ proton_legit (gas_legit rho th))) as (rt & RT & _). exists rt. split; [exact RT|]. apply (C65_slow_stopping _ _ _ _ RT); [cbn; lra|now apply C65_proton_slow].
Qed.

(** after any calls: of two proton energies the larger has the larger range, and the stopping power read off the range spline is positive *)
Theorem C65_proton_range junk h w rho th c T1 T2 r1 w1 r2 w2 : usual c -> small_junk junk -> exec_all junk h world0 = Ok w ->
  range junk (proton_at T1) (gas rho th) c w = Ok (r1, w1) -> range junk (proton_at T2) (gas rho th) c w1 = Ok (r2, w2) -> T1 + 20 * numeric_epsilon <= T2 -> r1 < r2.
Proof.
  intros U SJ EH H1 H2 L. destruct (proton_table rho th c U) as (rt & RT & G). destruct (C65_range junk h w proton (gas rho th) c rt T1 T2 r1 w1 r2 w2 SJ EH proton_legit RT G H1 H2) as [C _]. exact (C L).
Qed.
Print Assumptions C65_proton_range.
Theorem C65_proton_dedx junk h w rho th c T d w' : usual c -> small_junk junk -> exec_all junk h world0 = Ok w -> dedx_from_range junk (proton_at T) (gas rho th) c w = Ok (d, w') -> 0 < d.
Proof.
  intros U SJ EH H. destruct (proton_table rho th c U) as (rt & RT & G). apply (C65_dedx_from_range junk h w (proton_at T) (gas rho th) c rt d w' SJ EH (legit_at proton T proton_legit)); [exact RT|exact G|exact H].
Qed.
Print Assumptions C65_proton_dedx.

(** in a new program the calls return: the ranges of protons of 100 and 200 MeV with the default settings *)
Example C65_proton_case : exists r1 w1 r2 w2, range (fun _ => (1, 1)) (proton_at 100) (gas (1 / 800) 1) conf world0 = Ok (r1, w1) /\ range (fun _ => (1, 1)) (proton_at 200) (gas (1 / 800) 1) conf w1 = Ok (r2, w2) /\ r1 < r2.
Proof.
  pose (j := fun _ : nat => (1, 1)). fold j.
  destruct (range_good j (proton_at 100) (gas (1 / 800) 1) conf world0 (legit_at proton 100 proton_legit) (gas_legit _ _) world_ok0) as (r1 & w1 & H1 & W1 & _).
  destruct (range_good j (proton_at 200) (gas (1 / 800) 1) conf w1 (legit_at proton 200 proton_legit) (gas_legit _ _) W1) as (r2 & w2 & H2 & _).
  exists r1, w1, r2, w2. split; [exact H1|]. split; [exact H2|]. apply (C65_proton_range j [] world0 (1 / 800) 1 conf 100 200 r1 w1 r2 w2 usual_default); [|reflexivity|exact H1|exact H2|].
  - intros k. cbn [j fst snd]. rewrite Rabs_pos_eq; lra.
  - unfold numeric_epsilon. numR. dec_norm. lra.
Qed.
