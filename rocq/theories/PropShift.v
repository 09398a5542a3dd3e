(** * C55, C56: the complex functions, ln Gamma in the right half plane, and the value of a phase shift *)
From Coq Require Import ZArith Reals List Bool Lra Lia.
From Verif Require Import Num NumR Structures Calculations EnergyOutProofs PropSrim Lindhard TrigR PropLindhard PropHyperg PropPhase.
Import ListNotations.
Local Open Scope R_scope.

(** ** std::arg, std::log, std::exp, std::sqrt, std::sin *)
(** d is the principal argument of w *)
Definition is_arg (d : R) (w : C) : Prop := - PI < d <= PI /\ w = (cabs w * cos d, cabs w * sin d).
(** r is the principal square root of w *)
Definition is_root (r w : C) : Prop := cmul r r = w /\ (0 < fst r \/ (fst r = 0 /\ 0 <= snd r)).

Lemma carg_arg (w : C) : is_arg (carg w) w.
Proof.
  unfold is_arg, carg. cbn [fatan2 TrigR]. split; [apply Ratan2_range|]. destruct (Ratan2_polar (fst w) (snd w)) as [A B].
  apply cplx_eq; cbn [fst snd]; unfold cabs; numR; assumption.
Qed.
Lemma csqrt_root (w : C) : is_root (csqrt w) w.
Proof.
  assert (SQ : forall a, 0 <= a -> sqrt a * sqrt a = a) by (intros; now apply sqrt_sqrt).
  destruct w as [x y]. unfold is_root, csqrt, cmul. numR. cbn [fst snd]. lits.
  destruct (Reqb_spec x 0) as [->|NX].
  - pose proof (Rabs_pos y) as P. pose proof (SQ (Rabs y / 2) ltac:(lra)) as Q. pose proof (sqrt_pos (Rabs y / 2)) as QP. set (t := sqrt (Rabs y / 2)) in *.
    destruct (Rltb_spec y 0) as [N|N]; [rewrite Rabs_left in Q, P by lra|rewrite Rabs_right in Q, P by lra]; cbn [fst snd]; (split; [apply cplx_eq; cbn [fst snd]; nra|]).
    + left. destruct (Rle_lt_or_eq_dec _ _ QP) as [|E]; [assumption|]. rewrite <- E in Q. lra.
    + destruct (Rle_lt_or_eq_dec _ _ QP) as [|E]; [left; assumption|right; lra].
  - assert (AX : 0 < Rabs x) by (now apply Rabs_pos_lt).
    assert (S0 : cabs (F:=R) (x, y) * cabs (F:=R) (x, y) = x * x + y * y) by (unfold cabs; numR; cbn [fst snd]; apply SQ; nra).
    pose proof (cabs_nonneg (x, y)) as CP. set (m := cabs (F:=R) (x, y)) in *. change (cabs (x, y)) with m.
    assert (TP : 0 < 2 * (m + Rabs x)) by lra.
    pose proof (SQ (2 * (m + Rabs x)) ltac:(lra)) as Q. pose proof (sqrt_lt_R0 _ TP) as QP. set (t := sqrt (2 * (m + Rabs x))) in *.
    assert (YT : y / t * t = y) by (field; lra). assert (AT : Rabs y / t * t = Rabs y) by (field; lra).
    assert (AA : Rabs y * Rabs y = y * y) by (rewrite <- Rabs_mult; apply Rabs_right; nra).
    assert (Y2 : (y / t) * (y / t) * (2 * (m + Rabs x)) = y * y) by (rewrite <- Q; transitivity ((y / t * t) * (y / t * t)); [ring|now rewrite YT]).
    assert (A2 : (Rabs y / t) * (Rabs y / t) * (2 * (m + Rabs x)) = y * y) by (rewrite <- Q, <- AA; transitivity ((Rabs y / t * t) * (Rabs y / t * t)); [ring|now rewrite AT]).
    destruct (Rltb_spec 0 x) as [PX|PX].
    + cbn [fst snd]. rewrite (Rabs_right x) in * by lra. split; [apply cplx_eq; cbn [fst snd]; [|field; lra]|left; lra].
      set (v := y / t) in *. assert (V : v * v = (m - x) / 2). { apply Rmult_eq_reg_r with (2 * (m + x)); [|lra]. rewrite Y2. nra. } rewrite V. nra.
    + rewrite (Rabs_left x) in * by lra. assert (VN : 0 <= Rabs y / t) by (apply Rmult_le_pos; [apply Rabs_pos|left; apply Rinv_0_lt_compat; lra]).
      set (v := Rabs y / t) in *. assert (V : v * v = (m + x) / 2). { apply Rmult_eq_reg_r with (2 * (m + - x)); [|lra]. rewrite A2. nra. }
      destruct (Rltb_spec y 0) as [N|N]; cbn [fst snd]; [rewrite Rabs_left in AT by lra|rewrite Rabs_right in AT by lra]; (split; [apply cplx_eq; cbn [fst snd]; nra|]).
      * left. destruct (Rle_lt_or_eq_dec _ _ VN) as [|E]; [assumption|]. rewrite <- E in AT. lra.
      * destruct (Rle_lt_or_eq_dec _ _ VN) as [|E]; [left; assumption|right; lra].
Qed.

(** arg and sqrt are the principal argument and square root, exp inverts log, sin is Euler's combination of exponentials *)
Theorem C55_complex (w : C) :
  is_arg (carg w) w /\ is_root (csqrt w) w /\ (w <> re 0 -> cexp (clog w) = w /\ - PI < snd (clog w) <= PI) /\
  cmul (0, 2) (csin w) = csub (cexp (cmul (0, 1) w)) (cexp (cmul (0, -1) w)).
Proof.
  split; [apply carg_arg|]. split; [apply csqrt_root|]. split.
  - intros NZ. destruct (carg_arg w) as [A B]. split; [|exact A]. unfold cexp, clog. numR. cbn [fst snd fcos fsin TrigR]. rewrite exp_ln by (now apply cabs_pos). symmetry. exact B.
  - unfold csin, cexp, cmul, csub. numR. cbn [fst snd fcos fsin fsinh fcosh TrigR]. unfold sinh, cosh.
    replace (0 * fst w - 1 * snd w) with (- snd w) by ring. replace (0 * fst w - -1 * snd w) with (snd w) by ring.
    replace (0 * snd w + 1 * fst w) with (fst w) by ring. replace (0 * snd w + -1 * fst w) with (- fst w) by ring. rewrite cos_neg, sin_neg.
    apply cplx_eq; cbn [fst snd]; field.
Qed.
Print Assumptions C55_complex.

(** the root of -4 is 2i and not -2i; the argument of -1 is PI and not -PI *)
Example C55_complex_case : csqrt (F:=R) (-4, 0) = (0, 2) /\ carg (F:=R) (-1, 0) = PI /\ csqrt (F:=R) (3, -4) = (2, -1).
Proof.
  assert (U : forall r r' w, is_root r w -> is_root r' w -> r = r').
  { intros [a b] [a' b'] w [E P] [E' P']. rewrite <- E' in E. unfold cmul in E. revert E P P'. numR. cbn [fst snd]. intros E P P'.
    pose proof (f_equal fst E) as E1. pose proof (f_equal snd E) as E2. cbn [fst snd] in E1, E2.
    assert (D : (a - a') * (a + a') = (b - b') * (b + b')) by lra. assert (D2 : (a - a') * (b + b') + (a + a') * (b - b') = 0) by lra.
    assert (H : a = a' /\ b = b'); [|destruct H; congruence].
    assert (K : ((a - a') * (a - a') + (b - b') * (b - b')) * ((a + a') * (a + a') + (b + b') * (b + b')) = 0).
    { transitivity (((a - a') * (a + a') - (b - b') * (b + b')) * ((a - a') * (a + a') - (b - b') * (b + b')) + ((a - a') * (b + b') + (a + a') * (b - b')) * ((a - a') * (b + b') + (a + a') * (b - b'))); [ring|]. rewrite D2, D. ring. }
    apply Rmult_integral in K. destruct K as [K|K].
    - apply Rplus_sqr_eq_0 in K. lra.
    - apply Rplus_sqr_eq_0 in K. lra. }
  split; [|split].
  - apply (U _ _ (-4, 0)); [apply csqrt_root|]. unfold is_root, cmul. numR. cbn [fst snd]. split; [apply cplx_eq; cbn [fst snd]; lra|lra].
  - unfold carg. cbn [fatan2 TrigR fst snd]. unfold Ratan2. destruct (Rlt_dec 0 (-1)); [lra|]. destruct (Rlt_dec (-1) 0); [|lra]. destruct (Rlt_dec 0 0); [lra|].
    replace (0 / -1) with 0 by field. rewrite atan_0. ring.
  - apply (U _ _ (3, -4)); [apply csqrt_root|]. unfold is_root, cmul. numR. cbn [fst snd]. split; [apply cplx_eq; cbn [fst snd]; lra|lra].
Qed.

(** ** ln Gamma for a positive real part *)
(** Lanczos' series with g = 5 and six terms *)
Definition clanczos (z : C) : C :=
  let t (c : R) (j : R) := cdiv (re c) (cadd z (re j)) in
  cadd (re (1000000000190015 / 10 ^ 15)) (cadd (t (7618009172947146 / 10 ^ 14) 0) (cadd (t (- (8650532032941677 / 10 ^ 14)) 1) (cadd (t (2401409824083091 / 10 ^ 14) 2)
  (cadd (t (- (1231739572450155 / 10 ^ 15)) 3) (cadd (t (1208650973866179 / 10 ^ 18) 4) (t (- (5395239384953 / 10 ^ 18)) 5)))))).
(** (z - 1/2) log (z + 9/2) - (z + 9/2) + log (2 pi) / 2 + log (series) *)
Theorem C55_lngamma (z : C) : 0 < fst z -> clanczos z <> re 0 ->
  lngamma z = cadd (csub (cmul (csub z (re (1 / 2))) (clog (cadd z (re (9 / 2))))) (cadd z (re (9 / 2)))) (cadd (re (ln (2 * PI_) / 2)) (clog (clanczos z))).
Proof.
  intros X NZ. rewrite lngamma_core. destruct (Rlt_dec 0 (fst z)) as [_|]; [|lra]. destruct z as [x y]. cbn [fst snd] in *.
  assert (YY : 0 <= y * y) by nra.
  assert (DN : forall j, 0 <= j -> (x + j) * (x + j) + y * y <> 0) by (intros j J; nra).
  unfold gcore, lngamma_coeff. cbn [lngamma_sums]. cbv zeta. numR. litsg. cbn [Z.add Pos.add Pos.succ]. cbv beta iota zeta.
  match goal with |- context [Ratan2 (?nn * - y) ?dd] => set (num := nn); set (den := dd) end.
  assert (EL : clanczos (x, y) = (den, num * - y)).
  { unfold clanczos, num, den, cadd, cdiv, re. numR. cbn [fst snd]. pose proof (DN 0 ltac:(lra)). pose proof (DN 1 ltac:(lra)). pose proof (DN 2 ltac:(lra)). pose proof (DN 3 ltac:(lra)). pose proof (DN 4 ltac:(lra)). pose proof (DN 5 ltac:(lra)).
    replace (y + 0) with y by ring. replace (x - 1 + 1) with (x + 0) by ring. replace (x - 1 + 2) with (x + 1) by ring. replace (x - 1 + 3) with (x + 2) by ring. replace (x - 1 + 4) with (x + 3) by ring. replace (x - 1 + 5) with (x + 4) by ring. replace (x - 1 + 6) with (x + 5) by ring.
    set (d0 := (x + 0) * (x + 0) + y * y) in *. set (d1 := (x + 1) * (x + 1) + y * y) in *. set (d2 := (x + 2) * (x + 2) + y * y) in *. set (d3 := (x + 3) * (x + 3) + y * y) in *. set (d4 := (x + 4) * (x + 4) + y * y) in *. set (d5 := (x + 5) * (x + 5) + y * y) in *.
    apply cplx_eq; cbn [fst snd]; field; repeat split; assumption. }
  rewrite EL in NZ. rewrite EL. clear EL. clearbody num den.
  replace (x - 1 + 11 / 2) with (x + 9 / 2) by lra. unfold clog, carg, cadd, csub, cmul, re, cabs. cbn [fst snd fatan2 TrigR]. numR. replace (y + 0) with y by ring.
  assert (LS : ln (sqrt (den * den + num * - y * (num * - y))) = 1 / 2 * ln (num * - y * (num * - y) + den * den)).
  { apply sq_pos in NZ. unfold sq in NZ. cbn [fst snd] in NZ. rewrite Rplus_comm. rewrite <- Rpower_sqrt by lra. unfold Rpower. rewrite ln_exp. f_equal. lra. }
  rewrite LS. apply cplx_eq; cbn [fst snd]; field.
Qed.
Print Assumptions C55_lngamma.
Example C55_lngamma_hyp : clanczos (1, 1) <> re 0.
Proof. intros E. apply (f_equal fst) in E. unfold clanczos, cadd, cdiv, re in E. revert E. numR. cbn [fst snd]. lra. Qed.

(** ** The value of a phase shift *)
Definition alpha (Z : R) : R := Z / (137035999139 / 10 ^ 9).
Definition unit_at (x : R) : C := (cos x, sin x).
(** Gamma on the real axis, from ln Gamma to the right and Euler's reflection to the left *)
Definition rgamma (x : R) : R :=
  if Rlt_dec 0 x then exp (fst (lngamma (re x))) else PI_ / (sin (PI_ * x) * exp (fst (lngamma (re (1 - x))))).
(** orbital angular momentum and sign of k *)
Definition orbital (k : Z) : R := if Rlt_dec 0 (IZR k) then IZR k else - IZR k - 1.
Definition sign (k : Z) : R := if Rlt_dec 0 (IZR k) then 1 else -1.

Section Value.
  Variables (A z T : R) (k : Z).
  Let s := sqrt (IZR k * IZR k - alpha z * alpha z).
  Let eta := sommerfeld z T.
  Let g := lorentz T.
  Let x := momentum_radius A T.
  Let rho := radius A.
  (** a solution outside the nucleus: exponent u = s (regular) or -s (irregular), xi the square root of
      (k - i eta/gamma) / (u - i eta), h the value of the confluent hypergeometric series *)
  Record outside (fuel : nat) (u : R) (xi h : C) : Prop := {
    o_root : is_root xi (cdiv (IZR k, - eta / g) (u, - eta));
    o_series : hyperg fuel (u + 1, eta) (re (2 * u + 1)) (0, 2 * x) = Some h
  }.
  (** the two radial components at the surface, up to a common factor *)
  Definition wave (xi h : C) : C := cmul (cmul xi (unit_at (- x))) h.
  Definition upper (w : C) : R := snd w.
  Definition lower (w : C) : R := sqrt ((g - 1) / (g + 1)) * fst w.
  (** e^(i phase) at large distance *)
  Definition asymptotic (u : R) (xi : C) : C := cmul xi (unit_at (PI_ * (orbital k - u) / 2 - snd (lngamma (u + 1, eta)))).
  (** the ratio of the upper components of the two normalised solutions *)
  Definition strength (wr ws : C) : R :=
    upper wr / upper ws * (exp (fst (lngamma (s + 1, eta))) / exp (fst (lngamma (- s + 1, eta)))) * (rgamma (-2 * s + 1) / rgamma (2 * s + 1)) * Rpower (2 * x) (2 * s).
  (** the quotient of the two components inside, at the surface *)
  Definition inside (q : R) : Prop :=
    forall a b, interior (- sign k * alpha z) rho (- sign k * (rho * g + 3 / 2 * alpha z)) (Rabs (IZR k)) a b -> (forall m, sum_f_R0 a m <> 0) ->
    exists m, first_negligible a m /\ q = if Rlt_dec 0 (IZR k) then sum_f_R0 a m / sum_f_R0 b m else sum_f_R0 b m / sum_f_R0 a m.
  (** H is the amount of the irregular solution: none if the ratio above is at most 1e-9, otherwise such
      that the quotient of the components is continuous at the surface *)
  Definition admixture (wr ws : C) (H : R) : Prop :=
    (Rabs (strength wr ws) <= 1 / 10 ^ 9 /\ H = 0) \/
    (1 / 10 ^ 9 < Rabs (strength wr ws) /\ exists q, inside q /\
      forall Gs, upper wr <> 0 -> upper ws <> 0 -> q <> lower ws / upper ws ->
        let Gr := strength wr ws * Gs in let Fr := lower wr / upper wr * Gr in let Fs := lower ws / upper ws * Gs in
        Fr + H * Fs = q * (Gr + H * Gs)).
End Value.

Lemma exp_sum4 a b c d e : exp (a - b - c + d + e) = exp a / exp b * (exp d / exp c) * exp e.
Proof. unfold Rdiv. rewrite <- !exp_Ropp, <- !exp_plus. f_equal. ring. Qed.
Lemma PI_pos : 3 < PI_ (F:=R) < 4.
Proof. unfold PI_. numR. dec_norm. lra. Qed.
(** ln Gamma of a negative number has the sign of Gamma in the imaginary part *)
Lemma rgamma_sign x : (0 < x \/ (x < 0 /\ sin (PI_ * x) <> 0)) ->
  rgamma x = (if Rltb (cos (snd (lngamma (re x)))) 1 then -1 else 1) * exp (fst (lngamma (re x))).
Proof.
  intros H. unfold rgamma. destruct (Rlt_dec 0 x) as [P|P].
  - destruct (C55_lngamma_real x P) as [E _]. rewrite E. unfold re. cbn [fst snd]. rewrite cos_0. destruct (Rltb_spec 1 1); [lra|ring].
  - destruct H as [|[N NS]]; [lra|]. rewrite (C55_reflection (re x) N).
    assert (ER : csub (re 1) (re x) = re (1 - x)) by (unfold csub, re; numR; cbn [fst snd]; apply cplx_eq; cbn [fst snd]; ring). rewrite ER.
    destruct (C55_lngamma_real (1 - x) ltac:(lra)) as [E _].
    assert (EI : snd (lngamma (re (1 - x))) = 0) by (rewrite E; reflexivity).
    set (G := fst (lngamma (re (1 - x)))) in *.
    assert (EG : lngamma (re (1 - x)) = re G) by (apply cplx_eq; [reflexivity|exact EI]). rewrite EG.
    assert (ES : csin (rmulc PI_ (re x)) = re (sin (PI_ * x))).
    { unfold csin, rmulc, re. numR. cbn [fst snd fsin fcos fsinh fcosh TrigR]. rewrite Rmult_0_r, sinh_0, cosh_0. apply cplx_eq; cbn [fst snd]; ring. }
    rewrite ES. clearbody G. set (v := sin (PI_ * x)) in *. unfold clog, csub, cadd, carg, re.  change (cabs (v, 0)) with (cabs (re v)). rewrite cabs_re. numR. cbn [fst snd fatan2 TrigR].
    pose proof PI_pos as PP.
    replace (ln PI_ - (G + ln (Rabs v))) with (ln PI_ + - G + - ln (Rabs v)) by ring. rewrite !exp_plus, !exp_Ropp, !exp_ln by (try lra; now apply Rabs_pos_lt).
    pose proof (exp_pos G). unfold Ratan2. destruct (Rlt_dec 0 v) as [V|V].
    + replace (0 / v) with 0 by (field; lra). rewrite atan_0. replace (0 - (0 + 0)) with 0 by ring. rewrite cos_0. destruct (Rltb_spec 1 1); [lra|]. rewrite Rabs_right by lra. field. lra.
    + destruct (Rlt_dec v 0) as [V'|V']; [|lra]. destruct (Rlt_dec 0 0); [lra|]. replace (0 / v) with 0 by (field; lra). rewrite atan_0. replace (0 - (0 + (0 + PI))) with (- PI) by ring. rewrite cos_neg, cos_PI.
      destruct (Rltb_spec (-1) 1); [|lra]. rewrite Rabs_left by lra. field. lra.
Qed.

Lemma matching f a b c d q st Gs : b <> 0 -> d <> 0 -> q <> f * c / d ->
  let H := (f * a / b - q) / (q - f * c / d) * st in
  f * a / b * (st * Gs) + H * (f * c / d * Gs) = q * (st * Gs + H * Gs).
Proof.
  intros B D Q H. unfold H. field. repeat split; try assumption.
  intros Z0. apply Q. apply Rmult_eq_reg_r with d; [|exact D]. field_simplify; [|exact D]. lra.
Qed.

(** a phase shift is the argument of regular plus H times irregular solution at large distance *)
Theorem C56_phase_value p (k : Z) fuel d : 0 < pZ p -> 0 < pA p -> 0 < pT p -> k <> 0%Z ->
  let s := sqrt (IZR k * IZR k - alpha (pZ p) * alpha (pZ p)) in
  0 < IZR k * IZR k - alpha (pZ p) * alpha (pZ p) -> (-2 * s + 1 < 0 /\ sin (PI_ * (-2 * s + 1)) <> 0 \/ 0 < -2 * s + 1) ->
  phase fuel p (IZR k) = Some d ->
  exists xr hr xs hs H, outside (pA p) (pZ p) (pT p) k fuel s xr hr /\ outside (pA p) (pZ p) (pT p) k fuel (- s) xs hs /\
    admixture (pA p) (pZ p) (pT p) k (wave (pA p) (pT p) xr hr) (wave (pA p) (pT p) xs hs) H /\
    is_arg d (cadd (asymptotic (pZ p) (pT p) k s xr) (cmul (re H) (asymptotic (pZ p) (pT p) k (- s) xs))).
Proof.
  intros ZP AP TP KN s SP HS E.
  unfold phase in E. revert E. numR. lits. destruct lits_p as (LP15 & LPM & LPM'). rewrite LP15, LPM, LPM', ls_rho_R, ls_gamma_R, ls_eta_R, ls_bgR_R.
  assert (FA : fine_structure * pZ p = alpha (pZ p)) by (rewrite fine_R; unfold alpha; field).
  replace (IZR k * IZR k - fine_structure * fine_structure * pZ p * pZ p) with (IZR k * IZR k - alpha (pZ p) * alpha (pZ p)) by (rewrite <- FA; ring). fold s.
  pose proof (sqrt_lt_R0 _ SP) as S0. fold s in S0.
  set (eta := sommerfeld (pZ p) (pT p)). set (g := lorentz (pT p)). set (x := momentum_radius (pA p) (pT p)).
  assert (CE : forall t, cexp (F:=R) (0, t) = unit_at t).
  { intros t. unfold cexp, unit_at. numR. cbn [fst snd fcos fsin TrigR]. rewrite exp_0. apply cplx_eq; cbn [fst snd]; ring. }
  rewrite !CE.
  set (xr := csqrt (cdiv (IZR k, - eta / g) (s, - eta))). set (xs := csqrt (cdiv (IZR k, - eta / g) (- s, - eta))).
  change (2 * s + 1, 0) with (re (2 * s + 1)). change (-2 * s + 1, 0) with (re (-2 * s + 1)).
  destruct (hyperg fuel (s + 1, eta) (re (2 * s + 1)) (0, 2 * x)) as [hr|] eqn:HR; [|discriminate].
  destruct (hyperg fuel (- s + 1, eta) (re (-2 * s + 1)) (0, 2 * x)) as [hs|] eqn:HSS; [|discriminate]. cbn [obind].
  change (cmul (cmul xr (unit_at (- x))) hr) with (wave (pA p) (pT p) xr hr). change (cmul (cmul xs (unit_at (- x))) hs) with (wave (pA p) (pT p) xs hs).
  set (wr := wave (pA p) (pT p) xr hr). set (ws := wave (pA p) (pT p) xs hs).
  assert (OR : (if Rltb 0 (IZR k) then IZR k else - IZR k - 1) = orbital k).
  { unfold orbital. destruct (Rltb_spec 0 (IZR k)); destruct (Rlt_dec 0 (IZR k)); lra. }
  rewrite OR.
  assert (SG : (if Rltb 0 (IZR k) then 1 else if Rltb (IZR k) 0 then -1 else 0) = sign k).
  { unfold sign. destruct (Rltb_spec 0 (IZR k)) as [P|P]; destruct (Rlt_dec 0 (IZR k)) as [Q|Q]; try lra. destruct (Rltb_spec (IZR k) 0) as [D|D]; [reflexivity|]. exfalso. apply KN. apply eq_IZR. lra. }
  rewrite SG.
  match goal with |- context [Rltb (Rlit 1.0e-9) (Rabs ?e)] => set (st := e) end.
  assert (ST : st = strength (pA p) (pZ p) (pT p) k wr ws).
  { unfold st, strength. fold s eta x. rewrite (rgamma_sign (-2 * s + 1)) by (destruct HS as [|]; auto).
    unfold rgamma. destruct (Rlt_dec 0 (2 * s + 1)) as [_|]; [|lra]. cbn [fcos TrigR]. rewrite exp_sum4. unfold Rpower, upper.
    destruct (Rltb (cos (snd (lngamma (re (-2 * s + 1))))) 1); unfold Rdiv; ring. }
  clearbody st. subst st. set (st := strength (pA p) (pZ p) (pT p) k wr ws).
  assert (FIN : forall H, is_arg (carg (cadd (cmul xr (unit_at (PI_ * (orbital k - s) / 2 - snd (lngamma (s + 1, eta))))) (rmulc H (cmul xs (unit_at (PI_ * (orbital k + s) / 2 - snd (lngamma (- s + 1, eta))))))))
      (cadd (asymptotic (pZ p) (pT p) k s xr) (cmul (re H) (asymptotic (pZ p) (pT p) k (- s) xs)))).
  { intros H. unfold asymptotic. fold eta. replace (orbital k - - s) with (orbital k + s) by ring.
    match goal with |- is_arg (carg (cadd ?a (rmulc H ?b))) _ => replace (cmul (re H) b) with (rmulc H b) by (unfold cmul, rmulc, re; numR; apply cplx_eq; cbn [fst snd]; ring) end.
    apply carg_arg. }
  assert (OUT1 : outside (pA p) (pZ p) (pT p) k fuel s xr hr) by (split; [apply csqrt_root|exact HR]).
  assert (OUT2 : outside (pA p) (pZ p) (pT p) k fuel (- s) xs hs).
  { split; [apply csqrt_root|]. replace (2 * - s + 1) with (-2 * s + 1) by ring. exact HSS. }
  assert (L9 : Rlit 1.0e-9 = 1 / 10 ^ 9) by (dec_norm; lra). rewrite L9.
  destruct (Rltb_spec (1 / 10 ^ 9) (Rabs st)) as [B|B].
  - set (gz := -1 * sign k * (radius (pA p) * g + 3 / 2 * pZ p * fine_structure)). set (z1 := -1 * sign k * pZ p).
    match goal with |- context [inner_loop ?f ?a ?b ?c ?e ?h ?i ?j ?l ?m ?n] => destruct (inner_loop f a b c e h i j l m n) as [ab|] eqn:IL end; [|discriminate]. cbn [obind].
    intros E. injection E as E. rewrite <- E. do 5 eexists. split; [exact OUT1|]. split; [exact OUT2|]. split; [|apply FIN]. fold wr ws.
    right. fold st. split; [exact B|]. exists (if Rltb 0 (IZR k) then fst ab / snd ab else snd ab / fst ab). split.
    + intros a b IN NZ.
      assert (G1 : - sign k * alpha (pZ p) = fine_structure * z1) by (unfold z1; rewrite <- FA; ring).
      assert (G2 : - sign k * (radius (pA p) * lorentz (pT p) + 3 / 2 * alpha (pZ p)) = gz) by (unfold gz; rewrite <- FA; fold g; ring).
      rewrite G1, G2 in IN. pose proof (C56_interior z1 (radius (pA p)) gz (Rabs (IZR k)) a b fuel ab IN NZ) as [CI _].
      rewrite (in_a1 _ _ _ _ _ _ IN), (in_a0 _ _ _ _ _ _ IN), (in_b0 _ _ _ _ _ _ IN) in CI.
      rewrite !Rmult_1_r in IL. replace (1 / 2 * (gz + radius (pA p))) with ((gz + radius (pA p)) / 2) in IL by field.
      destruct (CI IL) as (m & _ & FN & EAB). exists m. split; [exact FN|]. rewrite EAB. cbn [fst snd].
      destruct (Rltb_spec 0 (IZR k)); destruct (Rlt_dec 0 (IZR k)); try lra; reflexivity.
    + set (q := if Rltb 0 (IZR k) then fst ab / snd ab else snd ab / fst ab). intros Gs UR US NQ. exact (matching (sqrt ((g - 1) / (g + 1))) (fst wr) (snd wr) (fst ws) (snd ws) q st Gs UR US NQ).
  - intros E. injection E as E. rewrite <- E. do 5 eexists. split; [exact OUT1|]. split; [exact OUT2|]. split; [|apply FIN]. left. split; [apply Rnot_lt_le; exact B|reflexivity].
Qed.
Print Assumptions C56_phase_value.

(** uranium at 100 MeV/u and k = 1: the phase shift exists and its value is the one described *)
Example C56_phase_value_case : let p := mkProj (F:=R) 238 92 92 100 in
  let s := sqrt (1 - alpha 92 * alpha 92) in
  exists fuel d xr hr xs hs H, phase fuel p 1 = Some d /\ outside 238 92 100 1 fuel s xr hr /\ outside 238 92 100 1 fuel (- s) xs hs /\
    admixture 238 92 100 1 (wave 238 100 xr hr) (wave 238 100 xs hs) H /\
    is_arg d (cadd (asymptotic 92 100 1 s xr) (cmul (re H) (asymptotic 92 100 1 (- s) xs))).
Proof.
  intros p s.
  assert (LR : radius (pA p) * lorentz (pT p) + 3 / 2 * coupling 92 <= 3 / 2).
  { unfold radius, lorentz, coupling, p. cbn [pA pT].
    assert (RP : Rpower 238 (1 / 3) <= 7).
    { apply Rle_trans with (Rpower 343 (1 / 3)); [apply Rle_Rpower_l; lra|]. right. replace 343 with (Rpower 7 3); [rewrite Rpower_mult; replace (3 * (1 / 3)) with 1 by field; apply Rpower_1; lra|].
      replace 3 with (INR 3) at 1 by (cbn; lra). rewrite Rpower_pow by lra. lra. }
    assert (P0 : 0 < Rpower 238 (1 / 3)) by apply exp_pos. lra. }
  destruct (C56_phase p 92 1 eq_refl ltac:(lia) ltac:(cbn; lra) ltac:(cbn; lra) ltac:(lia) LR) as (n & d & _ & PH). specialize (PH n (Nat.le_refl n)).
  assert (AV : 67 / 100 < alpha 92 < 68 / 100) by (unfold alpha; lra).
  assert (S1 : 7 / 10 < s < 3 / 4).
  { unfold s. split.
    - replace (7 / 10) with (sqrt (7 / 10 * (7 / 10))) by (apply sqrt_square; lra). apply sqrt_lt_1; nra.
    - replace (3 / 4) with (sqrt (3 / 4 * (3 / 4))) by (apply sqrt_square; lra). apply sqrt_lt_1; nra. }
  destruct (C56_phase_value p 1 n d) as (xr & hr & xs & hs & H & R1).
  - cbn; lra.
  - cbn; lra.
  - cbn; lra.
  - lia.
  - unfold p; cbn [pZ]. nra.
  - replace (sqrt (1 * 1 - alpha (pZ p) * alpha (pZ p))) with s by (unfold s, p; cbn [pZ]; f_equal; ring). left. split; [lra|].
    apply Rlt_not_eq. pose proof PI_pos. pose proof PI2_3_2. apply sin_lt_0_var; nra.
  - exact PH.
  - replace (sqrt (1 * 1 - alpha (pZ p) * alpha (pZ p))) with s in R1 by (unfold s, p; cbn [pZ]; f_equal; ring).
    exists n, d, xr, hr, xs, hs, H. split; [exact PH|exact R1].
Qed.
