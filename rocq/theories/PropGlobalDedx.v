(** * C67: the stopping power and the tables in the build with the external charge-state code GLOBAL *)
From Coq Require Import ZArith Reals List Bool Lra Lia FunctionalExtensionality.
From Verif Require Import Num NumR Structures DataElements EnergyTable Integrator Srim Calculations Storage Catima SpecData DataProofs GridProofs
  BoundsProofs TotalProofs EnergyOutProofs Cases PropTables PropMaterial PropKin PropDedx PropSrim PropZeff PropCorr PropStrag PropQuad PropMixture PropApi ApiTotal History BetheProofs BetheBracket PropBethe
  LnBounds DataQuadrature QuadProofs PropFormula PropJump GlobalCharge GlobalStopping PropGlobal PropWinger.
Import ListNotations.
Local Open Scope R_scope.

(** ** What the option does not change *)
(** the stopping power where the charges agree, for any arithmetic *)
Lemma ofold_same {A B} (f g : A -> B -> outcome A) l : (forall a b, In b l -> f a b = g a b) -> forall a, ofold f l a = ofold g l a.
Proof.
  induction l as [|b l IH]; intros H a; [reflexivity|]. cbn [ofold]. rewrite (H a b (or_introl eq_refl)).
  destruct (g a b); [|reflexivity]. cbn [bind]. apply IH. intros; apply H; now right.
Qed.
Theorem C67_stopping_same {F} {N : Num F} qm p m c : (forall t, In t (m_atoms m) -> z_effective_G (F:=F) qm p t c = z_effective p t c) ->
  dedx_G qm p m c = dedx p m c /\ domega2dx_G qm p m c = domega2dx p m c.
Proof.
  intros H. assert (B : bethek_dedx_e_G qm p m c = bethek_dedx_e p m c).
  { unfold bethek_dedx_e_G, bethek_dedx_e. apply ofold_same. intros a t I. unfold bethek_dedx_e_t_G, bethek_dedx_e_t. rewrite (H t I). reflexivity. }
  split; [unfold dedx_G, dedx; now rewrite B|]. unfold domega2dx_G, domega2dx. apply ofold_same. intros a t I. unfold dedx_variance_G, dedx_variance. rewrite (H t I). reflexivity.
Qed.
Print Assumptions C67_stopping_same.
(** .. and the three tables, for the choices of the charge that the option leaves alone *)
Theorem C67_tables_same {F} {N : Num F} qm p m c : c_zeff c <> z_atima14 -> (c_zeff c <> z_global \/ fltb (pZ p) (lit 29) = true) ->
  range_table_G (F:=F) qm p m c = range_table p m c /\ straggling_table_G qm p m c = straggling_table p m c /\ angular_table_G qm p m c = angular_table p m c.
Proof.
  intros NA H. assert (X : forall x, dedx_G qm (at_T p x) m c = dedx (at_T p x) m c /\ domega2dx_G qm (at_T p x) m c = domega2dx (at_T p x) m c).
  { intros x. apply C67_stopping_same. intros t _. apply C67_same; [exact NA|]. cbn [at_T pZ pT]. tauto. }
  assert (E1 : fdedx_G qm p m c = fdedx p m c) by (apply functional_extensionality; intros x; unfold fdedx_G, fdedx; now rewrite (proj1 (X x))).
  assert (E2 : fomega_G qm p m c = fomega p m c) by (apply functional_extensionality; intros x; unfold fomega_G, fomega; now rewrite (proj1 (X x)), (proj2 (X x))).
  assert (E3 : ftheta_G qm p m c = ftheta p m c) by (apply functional_extensionality; intros x; unfold ftheta_G, ftheta, da2de_G, da2de; now rewrite (proj1 (X x))).
  unfold range_table_G, straggling_table_G, angular_table_G. rewrite E1, E2, E3. split; [reflexivity|split; reflexivity].
Qed.
Print Assumptions C67_tables_same.
(** .. and up to 10 MeV/u with any charge: the charge does not enter the tables of stopping powers used there *)
Theorem C67_slow_same {F} {N : Num F} qm p m c : fleb (pT p) (lit 10) = true -> dedx_G qm p m c = dedx (F:=F) p m c.
Proof. intros H. unfold dedx_G, dedx. rewrite H. reflexivity. Qed.
Print Assumptions C67_slow_same.

(** ** The charge is not negative *)
(** what is asked of GLOBAL's charge for heavy ions: not negative, and in hydrogen and helium at least 2/7 of the Pierce-Blann charge *)
Definition global_fair (qm : R -> R -> R -> R) (z : R) (t : Target R) : Prop := forall E, 30 < E < 1500 -> 0 <= qm z (IZR (tZ t)) E /\
  ((tZ t <= 2)%Z -> forall cp, c_zeff cp = z_pierce_blann -> 2 / 7 * z_effective (F:=R) (mkProj 0 z 0 E) t cp <= qm z (IZR (tZ t)) E).
Definition fair_pair (qm : R -> R -> R -> R) (z : R) (t : Target R) : Prop := z <= 28 \/ 29 <= z /\ winger_pair z (tZ t) /\ global_fair qm z t.

Theorem C67_charge_positive qm A Z Q T t c : c_zeff c = z_atima14 -> 1 <= Z -> (1 <= tZ t)%Z -> 0 < T -> fair_pair qm Z t ->
  0 <= z_effective_G (F:=R) qm (mkProj A Z Q T) t c /\ (Z <= 28 -> 0 < z_effective_G (F:=R) qm (mkProj A Z Q T) t c).
Proof.
  intros E Z1 TZ T0 FP. set (cw := mkConfig z_winger 0 0 0 0 1 : Config R). set (cp := mkConfig z_pierce_blann 0 0 0 0 1 : Config R).
  pose proof (bare_range Z (IZR (tZ t)) T ltac:(lra) T0) as [B _]. destruct FP as [L|(HZ & WP & GF)].
  - destruct (C67_light qm A Z Q T t c cw E eq_refl ltac:(lra) TZ ltac:(lra)) as (L1 & L2 & L3).
    assert (W : winger_pair Z (tZ t)) by (split; [lra|left; split; [exact TZ|lra]]).
    pose proof (C40_winger_positive (mkProj A Z Q T) t cw eq_refl W ltac:(cbn; lra)) as [W0 _]. cbn [pZ] in W0.
    set (w := z_effective _ _ cw) in *. assert (0 < w) by (revert W0; decs; lra). set (b := bare _ _ _) in *. clearbody w b.
    assert (0 < z_effective_G (F:=R) qm (mkProj A Z Q T) t c); [|lra].
    destruct (Rle_lt_dec T 1000) as [H1|H1]; [rewrite L1 by lra; lra|]. destruct (Rle_lt_dec 1500 T) as [H2|H2]; [rewrite L3 by lra; lra|].
    rewrite L2 by lra. set (k := (T - 1000) / 500). assert (0 < k < 1) by (unfold k; lra). clearbody k. nra.
  - split; [|lra]. destruct (C67_heavy qm A Z Q T t c cw cp E eq_refl eq_refl HZ TZ ltac:(lra)) as (L1 & L2 & L3 & L4 & L5).
    pose proof (C40_winger_positive (mkProj A Z Q T) t cw eq_refl WP ltac:(cbn; lra)) as [W0 _]. cbn [pZ] in W0.
    set (w := z_effective _ _ cw) in *. assert (0 < w) by (revert W0; decs; lra).
    assert (G : 30 < T < 1500 -> 0 <= moved (z_effective (mkProj A Z Q T) t cp) (qm Z (IZR (tZ t)) T) (IZR (tZ t)) T).
    { intros HT. destruct (GF T HT) as [Q0 Q2]. specialize (fun h => Q2 h cp eq_refl). rewrite pb_code in Q2 by reflexivity. rewrite pb_code by reflexivity.
      pose proof (pb_range Z (velocity T) ltac:(lra) (proj1 (velocity_range T ltac:(lra)))) as [P _]. set (pb := z_eff_Pierce_Blann _ _) in *.
      assert (TR : 1 <= IZR (tZ t)) by (apply IZR_le in TZ; exact TZ). pose proof (weight_pos (IZR (tZ t)) T TR T0) as K. unfold moved.
      destruct (Z_le_gt_dec (tZ t) 2) as [S2|S3].
      - specialize (Q2 S2). set (q := qm _ _ _) in *. set (k := weight _ _) in *. clearbody q k pb. revert K. decs. intros K.
        assert (0 <= (q - 2 / 7 * pb) * k) by (apply Rmult_le_pos; lra). nra.
      - assert (T3 : 3 <= IZR (tZ t)) by (apply IZR_le; lia). pose proof (weight_lt1 (IZR (tZ t)) T T3 T0) as K1. set (q := qm _ _ _) in *. set (k := weight _ _) in *. clearbody q k pb.
        assert (0 <= q * k) by (apply Rmult_le_pos; lra). assert (0 <= pb * (1 - k)) by (apply Rmult_le_pos; lra). lra. }
    set (g := moved _ _ _ _) in *. set (b := bare _ _ _) in *. clearbody w g b.
    destruct (Rle_lt_dec T 30) as [H1|H1]; [rewrite L1 by lra; lra|]. destruct (Rle_lt_dec 1500 T) as [H5|H5]; [rewrite L5 by lra; lra|]. specialize (G ltac:(lra)).
    destruct (Rle_lt_dec T 70) as [H2|H2].
    { rewrite L2 by lra. set (k := (T - 30) / 40). assert (0 < k <= 1) by (unfold k; lra). clearbody k. nra. }
    destruct (Rle_lt_dec T 1000) as [H3|H3]; [rewrite L3 by lra; exact G|].
    rewrite L4 by lra. set (k := (T - 1000) / 500). assert (0 < k < 1) by (unfold k; lra). clearbody k. nra.
Qed.
Print Assumptions C67_charge_positive.

(** the choices of the charge for which it is known not to be negative in this build: those of C52 that the option leaves alone, the default of this
    build, and GLOBAL alone *)
Definition charge_known_G (qm : R -> R -> R -> R) (p : Projectile R) (m : Material R) (c : Config R) : Prop :=
  corr_has c no_barkas = true \/
  (c_zeff c <> z_atima14 /\ c_zeff c <> z_global /\ charge_known p m c) \/
  (c_zeff c = z_atima14 /\ Forall (fun t => fair_pair qm (pZ p) t) (m_atoms m)) \/
  (c_zeff c = z_global /\ Forall (fun t => forall E, 30 <= E <= 2000 -> 29 <= pZ p -> 0 <= qm (pZ p) (IZR (tZ t)) E) (m_atoms m)).
Lemma charge_G qm p m t c : 1 <= pZ p < 109 -> 10 <= pT p -> In t (m_atoms m) -> (1 <= tZ t <= 120)%Z -> corr_has c no_barkas = false -> charge_known_G qm p m c ->
  0 <= z_effective_G (F:=R) qm p t c.
Proof.
  intros HZ HT IN TZ NB [H|[(NA & NG & H)|[[E W]|[E W]]]].
  - congruence.
  - rewrite C67_same by (try exact NA; now left). now apply (C52_charge_known p m t c).
  - rewrite Forall_forall in W. destruct p as [A z Q T]. cbn [pZ pT] in *. apply C67_charge_positive; try assumption; try lra; try lia. now apply W.
  - rewrite Forall_forall in W. specialize (W t IN). destruct p as [A z Q T]. cbn [pZ pT] in *. unfold z_effective_G. rewrite E. change (0 <= z_eff_global_G (F:=R) qm z T (IZR (tZ t))).
    unfold z_eff_global_G. numR. pose proof (pb_range z T ltac:(lra) ltac:(lra)) as P.
    destruct (Rltb_spec (Rlit 2000) T) as [K|K]; [lra|]. destruct (Rltb_spec T (Rlit 30.0)) as [K1|K1]; [cbn [orb]; lra|]. destruct (Rltb_spec z (Rlit 29)) as [K2|K2]; [cbn [orb]; lra|]. cbn [orb].
    revert K K1 K2. dec_norm. intros. apply W; lra.
Qed.

(** ** The stopping power *)
(** the charge enters the functions only through its value: the same numbers come from an ion carrying that charge *)
Definition carrying (q : R) (p : Projectile R) : Projectile R := mkProj (pA p) (pZ p) q (pT p).
Definition as_given (c : Config R) : Config R := mkConfig z_none (c_corr c) (c_calc c) (c_low c) (c_scat c) (c_sfac c).
Theorem C67_as_given qm p t c I : bethek_dedx_e_t_G (F:=R) qm p t c I = bethek_dedx_e_t (carrying (z_effective_G qm p t c) p) t (as_given c) I /\
  dedx_variance_G (F:=R) qm p t c = dedx_variance (carrying (z_effective_G qm p t c) p) t (as_given c).
Proof. split; destruct p; reflexivity. Qed.
Print Assumptions C67_as_given.

Lemma bethe_t_UB p t c I v : 1 <= pZ p < 109 -> (1 <= tZ t)%Z -> just_below_table_end (pT p) -> corr_has c no_lindhard = false -> bethek_dedx_e_t (F:=R) p t c I <> Ok v.
Proof.
  intros HZ TZ J NL E. set (m := mkMat 1 1 1 I [t] : Material R).
  assert (C : dedx (F:=R) p m c = UB OutOfBounds) by (apply C38_table_end_refuted; [exact HZ|discriminate| |exact J|exact NL]; intros u [<-|[]]; exact TZ).
  assert (T : 30 <= pT p) by (unfold just_below_table_end in J; cbv zeta in J; pose proof eps_small; pose proof table_end_high; pose proof ls_glast_big;
    assert (GL : ls_glast = exp (LN10_ * 7)) by (unfold ls_glast; rewrite glast_val by (lia || lra); reflexivity); rewrite <- GL in J; lra).
  rewrite (C37_high p m c T) with (b := fadd (lit 0.0) (fmul (wfrac m t) v)) in C; [discriminate C|].
  change (ofold (fun sum u => d <- bethek_dedx_e_t p u c I ;; Ok (fadd sum (fmul (wfrac m u) d))) [t] (lit 0.0) = Ok (fadd (lit 0.0) (fmul (wfrac m t) v))).
  cbn [ofold]. rewrite E. reflexivity.
Qed.

Lemma bethe_G qm p m c : isotope p -> 0 < pA p -> 10 <= pT p -> (corr_has c no_lindhard = false -> ~ just_below_table_end (pT p)) ->
  known_material m -> charge_known_G qm p m c -> exists b, bethek_dedx_e_G (F:=R) qm p m c = Ok b /\ 0 <= b.
Proof.
  intros IP A T SF [(_ & M & S) K] CF. unfold bethek_dedx_e_G.
  assert (SF' : corr_has c no_lindhard = false -> ls_safe (pT p)) by (intros H; apply safe_iff; auto).
  assert (P : forall l b, (forall t, In t l -> In t (m_atoms m) /\ (0 < tA t /\ (1 <= tZ t)%Z /\ 0 < tstn t) /\ (tZ t <= 120)%Z /\ plausible_I (m_I m) (tZ t)) -> 0 <= b ->
    exists v, ofold (fun sum t => d <- bethek_dedx_e_t_G qm p t c (m_I m) ;; Ok (fadd sum (fmul (wfrac m t) d))) l b = Ok v /\ 0 <= v).
  { induction l as [|t l IH]; intros b H B; [exists b; auto|]. cbn [ofold].
    destruct (H t (or_introl eq_refl)) as (INM & (TA & TZ & N) & TZ' & PI). rewrite (proj1 (C67_as_given qm p t c (m_I m))).
    destruct (bethe_target (carrying (z_effective_G qm p t c) p) t (as_given c) (m_I m) IP A T SF' (conj TZ TZ') TA PI) as (v & E & V).
    { intros NB. change (0 <= z_effective_G qm p t c). apply (charge_G qm p m t c); [apply IP|exact T|exact INM|lia|exact NB|exact CF]. }
    rewrite E. cbn [bind]. apply IH; [intros u U; apply H; now right|]. pose proof (wfrac_pos m t M TA N). numR. assert (0 <= wfrac m t * v) by (apply Rmult_le_pos; lra). lra. }
  apply P; [|numR; dec_norm; lra]. rewrite Forall_forall in S, K. auto.
Qed.

(** positive whenever it has a value, and it has one away from the last 2e-15 MeV/u below the end of the tables *)
Theorem C67_positive qm p m c : isotope p -> 0 < pA p -> 0 < pT p -> known_material m -> charge_known_G qm p m c ->
  (forall d, dedx_G (F:=R) qm p m c = Ok d -> 0 < d) /\ (~ just_below_table_end (pT p) -> positive (dedx_G (F:=R) qm p m c)).
Proof.
  intros IP A T KM CF. pose proof (isotope_ion p IP A) as IO. pose proof KM as [SO K].
  assert (NP : 0 < dedx_n p m) by (apply nuclear_sum_pos; [exact T|exact A|destruct IP as [Z _]; lra|exact SO]).
  assert (V : (corr_has c no_lindhard = false -> ~ just_below_table_end (pT p)) -> positive (dedx_G (F:=R) qm p m c)).
  { intros SF. destruct (Rle_lt_dec (pT p) 10) as [L|H].
    { rewrite C67_slow_same; [|numR; destruct (Rleb_spec (pT p) (Rlit 10)) as [L'|L']; [reflexivity|revert L'; dec_norm; lra]].
      destruct (C42_dedx p m c T L IO SO) as (d' & E' & D'). exists d'. auto. }
    destruct (bethe_G qm p m c IP A ltac:(lra) SF KM CF) as (b & EB & B).
    destruct (sezi_pos p m c T IO SO) as (s & ES & PS).
    unfold positive, dedx_G. rewrite EB, ES. numR. cbn [bind].
    destruct (Rleb_spec (pT p) (Rlit 0)) as [L|_]; [revert L; dec_norm; lra|]. destruct (Rleb_spec (pT p) (Rlit 10)) as [L|_]; [revert L; dec_norm; lra|].
    destruct (Rltb_spec (Rlit 10) (pT p)) as [_|L]; [|revert L; dec_norm; lra]. destruct (Rltb_spec (pT p) (Rlit 30)) as [L|L]; cbn [andb].
    - eexists. split; [reflexivity|]. revert L. dec_norm. intros L. replace (100 / 10) with 10 by lra. set (k := 5 / 100 * (pT p - 10)).
      assert (0 < k < 1) by (unfold k; lra). clearbody k. assert (0 < (1 - k) * s) by (apply Rmult_lt_0_compat; lra). assert (0 <= k * b) by (apply Rmult_le_pos; lra). lra.
    - eexists. split; [reflexivity|]. dec_norm. lra. }
  split; [|intros J; apply V; auto]. intros d E. destruct (Classical_Prop.classic (corr_has c no_lindhard = false -> ~ just_below_table_end (pT p))) as [SF|NS].
  { destruct (V SF) as (d' & E' & D'). congruence. }
  exfalso. apply Classical_Prop.imply_to_and in NS. destruct NS as [NL J]. apply Classical_Prop.NNPP in J.
  assert (T3 : 30 <= pT p) by (unfold just_below_table_end in J; cbv zeta in J; pose proof eps_small; pose proof table_end_high; pose proof ls_glast_big;
    assert (GL : ls_glast = exp (LN10_ * 7)) by (unfold ls_glast; rewrite glast_val by (lia || lra); reflexivity); rewrite <- GL in J; lra).
  revert E. unfold dedx_G. numR. destruct (Rleb_spec (pT p) (Rlit 0)) as [L|_]; [revert L; dec_norm; lra|]. destruct (Rleb_spec (pT p) (Rlit 10)) as [L|_]; [revert L; dec_norm; lra|].
  destruct (Rltb_spec (pT p) (Rlit 30)) as [L|_]; [revert L; dec_norm; lra|]. rewrite andb_false_r. destruct SO as (NE & _ & S).
  unfold bethek_dedx_e_G. destruct (m_atoms m) as [|t l]; [contradiction|]. cbn [ofold]. rewrite (proj1 (C67_as_given qm p t c (m_I m))).
  destruct (bethek_dedx_e_t _ t _ _) as [v|] eqn:EV; [|discriminate]. exfalso. revert EV. apply bethe_t_UB; [apply IP| |exact J|exact NL]. rewrite Forall_forall in S. apply (S t). now left.
Qed.
Print Assumptions C67_positive.

(** ** No table access out of bounds *)
(** for every ion of charge 1 to 108, all the tables get their 600 values *)
Theorem C67_defined qm p m c : 1 <= pZ p < 109 -> Forall (fun t => (1 <= tZ t <= 46340)%Z) (m_atoms m) ->
  (~ just_below_table_end (pT p) -> defined (dedx_G (F:=R) qm p m c) /\ defined (domega2dx_G (F:=R) qm p m c)) /\
  exists rt st at_, range_table_G (F:=R) qm p m c = Ok rt /\ straggling_table_G (F:=R) qm p m c = Ok st /\ angular_table_G (F:=R) qm p m c = Ok at_ /\
    length rt = 600%nat /\ length st = 600%nat /\ length at_ = 600%nat.
Proof.
  intros Z Tg. assert (Tk : targets_ok m) by (eapply Forall_impl; [|exact Tg]; cbv beta; intros; lia).
  assert (Ra : radiation_ok m) by (eapply Forall_impl; [|exact Tg]; cbv beta; intros; lia).
  assert (B : forall x, ls_safe x -> defined (bethek_dedx_e_G (F:=R) qm (at_T p x) m c)).
  { intros x G. unfold bethek_dedx_e_G. apply defined_ofold. intros b t Ht. unfold targets_ok in Tk. rewrite Forall_forall in Tk. specialize (Tk t Ht). cbv beta in Tk.
    dbind; [|apply defined_Ok]. unfold bethek_dedx_e_t_G. destruct (feqb _ _); [apply defined_Ok|]. cbv zeta. dbind; [now apply density_effect_ok|].
    dbind; [destruct (negb _); [now apply lindhard_ok | apply defined_Ok]|]. apply defined_Ok. }
  assert (D : forall x, ls_safe x -> defined (dedx_G (F:=R) qm (at_T p x) m c)).
  { intros x G. unfold dedx_G. destruct (fleb _ _); [apply defined_Ok|]. cbv zeta. dbind; [|apply defined_Ok].
    destruct (fleb _ _); [now apply sezi_ok|]. destruct (_ && _)%bool; [|now apply B]. dbind; [now apply sezi_ok|]. dbind; [now apply B|]. apply defined_Ok. }
  assert (O : forall x, ls_safe x -> defined (domega2dx_G (F:=R) qm (at_T p x) m c)).
  { intros x G. unfold domega2dx_G. apply defined_ofold. intros b t Ht. dbind; [|apply defined_Ok]. unfold dedx_variance_G. cbv zeta. dbind; [now apply lindhard_X_ok|]. apply defined_Ok. }
  split.
  { intros J. apply safe_iff in J. specialize (D _ J). specialize (O _ J). destruct p. split; assumption. }
  destruct (table_ok (scaled_integral (pA p) (fdedx_G qm p m c))) as (rt & E1 & L1).
  { intros a b G. apply scaled_ok; [exact G|]. intros z Hz. unfold fdedx_G. dbind; [now apply D|apply defined_Ok]. }
  destruct (table_ok (scaled_integral (pA p) (fomega_G qm p m c))) as (st & E2 & L2).
  { intros a b G. apply scaled_ok; [exact G|]. intros z Hz. unfold fomega_G. dbind; [now apply O|]. dbind; [now apply D|apply defined_Ok]. }
  destruct (table_ok (scaled_integral (pA p) (ftheta_G qm p m c))) as (at_ & E3 & L3).
  { intros a b G. apply scaled_ok; [exact G|]. intros z Hz. unfold ftheta_G, da2de_G. dbind.
    { unfold da2dx. dbind; [|apply defined_Ok]. unfold angular_scattering_power. destruct (fleb _ _); [apply defined_Ok|]. cbv zeta.
      dbind; [now apply radiation_length_ok|apply defined_Ok]. }
    dbind; [now apply D|apply defined_Ok]. }
  exists rt, st, at_. auto 6.
Qed.
Print Assumptions C67_defined.

(** ** The tables *)
Theorem C67_ranges qm p m c rt : isotope p -> 0 < pA p -> known_material m -> charge_known_G qm p m c -> range_table_G qm p m c = Ok rt ->
  nth 0 rt 0 = 0 /\ forall i j, (i < j < 600)%nat -> nth i rt 0 < nth j rt 0.
Proof.
  intros IP A KM CF RT. apply scaled_nth in RT. destruct RT as (L & Z0 & NT). split; [exact Z0|]. intros i j J. apply (increasing_far rt 599); [|lia].
  intros k K. destruct (NT k ltac:(lia)) as (r & E & D). destruct C26_library as [IN LIB]. rewrite LIB in E. pose proof (energy_pos k ltac:(lia)) as EP.
  assert (0 < r).
  { apply (C26_positive _ _ _ _ _ IN (energy_incr k ltac:(lia))) in E; [exact E|]. intros x u X U. unfold fdedx_G in U.
    destruct (dedx_G qm (at_T p x) m c) as [d|] eqn:ED; cbn [bind] in U; [|discriminate].
    pose proof (proj1 (C67_positive qm (at_T p x) m c IP A ltac:(cbn [at_T pT]; lra) KM CF) d ED) as P.
    revert U. numR. intros U. injection U as <-. apply Rmult_lt_0_compat; [dec_norm; lra|apply Rinv_0_lt_compat; exact P]. }
  assert (0 < pA p * r) by (apply Rmult_lt_0_compat; assumption). lra.
Qed.
Print Assumptions C67_ranges.

(** the variance of the energy loss is not negative, whatever GLOBAL gives: the charge is squared *)
Theorem C67_variance qm p m c : isotope p -> 0 <= pT p <= 400000 -> solid m -> exists v, domega2dx_G (F:=R) qm p m c = Ok v /\ 0 <= v.
Proof.
  intros IP T (_ & M & S). unfold domega2dx_G. assert (P : forall l b, (forall t, In t l -> 0 < tA t /\ (1 <= tZ t)%Z /\ 0 < tstn t) -> 0 <= b ->
    exists v, ofold (fun sum t => v <- dedx_variance_G qm p t c ;; Ok (fadd sum (fmul (wfrac m t) v))) l b = Ok v /\ 0 <= v).
  { induction l as [|t l IH]; intros b H B; [exists b; auto|]. cbn [ofold]. rewrite (proj2 (C67_as_given qm p t c 0)).
    destruct (H t (or_introl eq_refl)) as (A & Z & N). destruct (C50_variance (carrying (z_effective_G qm p t c) p) t (as_given c) IP T A Z) as (v & E & V & _). rewrite E. cbn [bind].
    apply IH; [intros u U; apply H; now right|]. pose proof (wfrac_pos m t M A N). numR. assert (0 <= wfrac m t * v) by (apply Rmult_le_pos; lra). lra. }
  apply P; [|numR; dec_norm; lra]. rewrite Forall_forall in S. exact S.
Qed.
Print Assumptions C67_variance.
Theorem C67_straggling qm p m c st : isotope p -> 0 < pA p -> solid m -> straggling_table_G qm p m c = Ok st ->
  forall i, (S i < 600)%nat -> energy (S i) <= 400000 -> nth i st 0 <= nth (S i) st 0.
Proof.
  intros IP A SO ST i I E4. apply scaled_nth in ST. destruct ST as (_ & _ & NT). destruct (NT i I) as (r & E & D). destruct C26_library as [IN LIB]. rewrite LIB in E.
  pose proof (energy_pos i ltac:(lia)) as EP. pose proof (energy_incr i I) as LT.
  assert (Z0 : exists z, quad (8%nat, GL8_x, GL8_w) (fun _ => Ok 0) (energy i) (energy (S i)) = Ok z /\ z = 0).
  { eexists. split; [unfold quad; cbn [fst snd]; apply gl_value; discriminate|].
    assert (PZ : forall l p q, pair_sum l (fun _ => 0) p q = 0) by (induction l as [|[u v] l IH]; intros; cbn [pair_sum]; [reflexivity|]; rewrite IH; ring).
    unfold node_sum. change (Nat.odd 8) with false. cbv iota. rewrite PZ. ring. }
  destruct Z0 as (z & QZ & Z0). assert (0 <= r).
  { rewrite <- Z0. refine (C26_monotone _ _ _ _ _ _ _ IN (Rlt_le _ _ LT) _ QZ E). intros x u v X U V. injection U as <-.
    unfold fomega_G in V. destruct (C67_variance qm (at_T p x) m c IP ltac:(cbn [at_T pT]; lra) SO) as (o & EO & O). rewrite EO in V. cbn [bind] in V.
    destruct (dedx_G qm (at_T p x) m c) as [d|] eqn:ED in V; cbn [bind] in V; [|discriminate].
    unfold power in V. revert V. numR. intros V. injection V as <-. apply Rmult_le_pos; [exact O|left; apply Rinv_0_lt_compat; apply exp_pos]. }
  assert (0 <= pA p * r) by (apply Rmult_le_pos; lra). lra.
Qed.
Print Assumptions C67_straggling.

(** ** Concrete cases: carbon and lead ions in water with the default configuration of this build *)
Lemma carbon_known qm T : charge_known_G qm (carbon T) (water 1) Config0_G.
Proof. right; right; left. split; [reflexivity|]. apply Forall_forall. intros t _. left. cbn. lra. Qed.
Example C67_stopping_case qm : positive (dedx_G (F:=R) qm (carbon 1000) (water 1) Config0_G) /\ dedx_G (F:=R) qm (carbon 5) (water 1) Config0_G = dedx (carbon 5) (water 1) Config0_G /\
  exists rt st, range_table_G (F:=R) qm (carbon 5) (water 1) Config0_G = Ok rt /\ straggling_table_G (F:=R) qm (carbon 5) (water 1) Config0_G = Ok st /\
    nth 0 rt 0 = 0 /\ nth 3 rt 0 < nth 599 rt 0 /\ nth 3 st 0 <= nth 4 st 0.
Proof.
  split; [|split].
  - apply C67_positive; [apply carbon_isotope|cbn; lra|cbn; lra|apply water_known|apply carbon_known|].
    unfold just_below_table_end. cbn [pT carbon]. pose proof eps_small. pose proof table_end_high. lra.
  - apply C67_slow_same. numR. cbn [pT carbon]. destruct (Rleb_spec 5 (Rlit 10)) as [L|L]; [reflexivity|revert L; dec_norm; lra].
  - destruct (C67_defined qm (carbon 5) (water 1) Config0_G) as (_ & rt & st & at_ & E1 & E2 & _); [cbn; lra|repeat constructor; cbn; lia|].
    exists rt, st. split; [exact E1|]. split; [exact E2|].
    destruct (C67_ranges qm (carbon 5) (water 1) Config0_G rt (carbon_isotope 5) ltac:(cbn; lra) (water_known 1) (carbon_known qm 5) E1) as [Z0 INC].
    split; [exact Z0|]. split; [apply INC; lia|].
    apply (C67_straggling qm (carbon 5) (water 1) Config0_G st (carbon_isotope 5) ltac:(cbn; lra) (proj1 (water_known 1)) E2); [lia|].
    rewrite energy_G by lia. unfold gval, gstep. apply Rle_trans with (exp 0); [left; apply exp_increasing|rewrite exp_0; lra].
    pose proof LN10_bounds. replace (INR 600) with 600 by (rewrite INR_IZR_INZ; reflexivity). replace (INR 4) with 4 by (rewrite INR_IZR_INZ; reflexivity). nra.
Qed.
(** lead that GLOBAL takes to be bare *)
Example C67_lead_case : 0 <= z_effective_G (F:=R) (fun Z _ _ => Z) (mkProj 208 82 82 500) (mkTarget 1 1 2) Config0_G.
Proof.
  apply C67_charge_positive; [reflexivity|lra|cbn; lia|lra|]. right. split; [lra|]. split; [split; [lra|left; cbn [tZ]; split; [lia|lra]]|].
  intros E HE. cbn [tZ]. split; [lra|]. intros _ cp HC. rewrite pb_code by exact HC.
  pose proof (pb_range 82 (velocity E) ltac:(lra) (proj1 (velocity_range E ltac:(lra)))). lra.
Qed.
