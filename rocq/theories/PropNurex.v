(** * C68: the survival probability in the build with the external cross sections of NUREX

    [cs ap zp e at zt] is the cross section in mb that the external library gives; it may be any function, and it may fail. *)
From Coq Require Import ZArith Reals List Bool Lra Lia.
From Verif Require Import Num NumR Structures Integrator DataQuadrature NucData EnergyTable Reactions Storage Catima SpecData DataProofs BoundsProofs ApiTotal Cases History
  PropMaterial PropKin PropSrim QuadProofs PropQuad PropReact Nurex.
Import ListNotations.
Local Open Scope R_scope.

(** ** With the cross section of the library itself nothing changes *)
Theorem C68_same {F} {N : Num F} junk p t c (w : world F) : nonreaction_rate_N junk SigmaR_Kox p t c w = nonreaction_rate junk p t c w.
Proof. reflexivity. Qed.
Print Assumptions C68_same.

(** ** The law of attenuation *)
(** the part of the ions that does not react: [n] target nuclei per square centimetre, in units of 10^23, with the cross section [s] in
    mb = 10^-27 cm^2 *)
Definition survival (n s : R) : R := exp (- (n * s / 10000)).
Lemma survival_decreases n s s' : 0 <= n -> s <= s' -> survival n s' <= survival n s.
Proof. intros N0 S. unfold survival. assert (n * s <= n * s') by (now apply Rmult_le_compat_l). destruct (Rle_lt_or_eq_dec (- (n * s' / 10000)) (- (n * s / 10000)) ltac:(lra)) as [L|E]; [left; now apply exp_increasing|right; now rewrite E]. Qed.

(** the mean over the constituents lies between the smallest and the largest cross section *)
Lemma sigma_mean cs eo ap zp t x e s s1 s2 : solid t -> eo x = Ok e ->
  (forall el a k, In el (m_atoms t) -> get_isotope_a (tZ el) 0 = Ok a -> cs ap zp e a (tZ el) = Ok k -> s1 <= k <= s2) ->
  sigma_r_N (F:=R) cs eo ap zp t x = Ok s -> s1 <= s <= s2.
Proof.
  intros (NE & M & FA) E0 B. unfold sigma_r_N. rewrite E0. cbn [bind].
  intros S. destruct (ofold _ _ _) as [acc|] eqn:OF; cbn [bind] in S; [|discriminate]. revert S. numR. intros S.
  assert (SE : s = snd acc / fst acc) by congruence. rewrite SE. clear SE S.
  assert (G : forall l a0 a1, (forall el, In el l -> In el (m_atoms t)) -> 0 <= fst a0 -> s1 * fst a0 <= snd a0 <= s2 * fst a0 ->
    ofold (fun (acc : R * R) (t0 : Target R) => at_ <- get_isotope_a (tZ t0) 0;; (let f := mfrac t t0 in k <- cs ap zp e at_ (tZ t0);; Ok (fadd (fst acc) f, fadd (snd acc) (fmul f k)))) l a0 = Ok a1 ->
    (l = [] -> 0 < fst a0) -> 0 < fst a1 /\ s1 * fst a1 <= snd a1 <= s2 * fst a1).
  { induction l as [|el l IH]; intros a0 a1 IN P0 P1 O Z0; cbn [ofold] in O.
    - injection O as <-. split; [apply Z0; reflexivity|exact P1].
    - destruct (get_isotope_a (tZ el) 0) as [a|] eqn:A; cbn [bind] in O; [|discriminate]. cbv zeta in O. destruct (cs ap zp e a (tZ el)) as [k|] eqn:K; cbn [bind] in O; [|discriminate].
      pose proof (B el a k (IN el (or_introl eq_refl)) A K) as KB. rewrite Forall_forall in FA. destruct (FA el (IN el (or_introl eq_refl))) as (TA & _ & TS). pose proof (mfrac_pos t el M TA TS) as MF.
      apply IH in O; [exact O|intros u U; apply IN; now right| | |]; cbn [fst snd]; numR; [lra| |intros _; lra].
      set (f := mfrac t el) in *. clearbody f. assert (s1 * f <= f * k <= s2 * f) by (split; nra). lra. }
  assert (R0 : Rlit 0.0 = 0) by (dec_norm; lra). revert OF. numR. intros OF.
  destruct (G (m_atoms t) (Rlit 0.0, Rlit 0.0) acc ltac:(auto) ltac:(cbn [fst]; lra) ltac:(cbn [fst snd]; rewrite R0; lra) OF ltac:(intros; contradiction)) as [A [C D]].
  split; [apply Rmult_le_reg_r with (fst acc); [exact A|]|apply Rmult_le_reg_r with (fst acc); [exact A|]]; replace (snd acc / fst acc * fst acc) with (snd acc) by (field; lra); assumption.
Qed.

Lemma Rabs_le2 x y : Rabs x <= y -> - y <= x <= y.
Proof. intros H. unfold Rabs in H. destruct (Rcase_abs x); lra. Qed.
Lemma constant_integral s th : 0 <= th -> exists i, integrate (F:=R) (fun _ => Ok s) 0 th = Ok i /\ Rabs (i - s * th) <= th * (/ 10 ^ 20 * Rabs s).
Proof.
  intros T. destruct C26_library as [IN LI].
  destruct (C26_exact 8 GL8_x GL8_w (fun _ => s) (fun x => s * x) 0 th [s] IN T ltac:(cbn [length]; lia) ltac:(intros u; cbn [poly fold_right]; ring)) as (i & I & B).
  { intros x _. assert (D := derivable_pt_lim_scal id s x 1 (derivable_pt_lim_id x)). rewrite Rmult_1_r in D. exact D. }
  exists i. rewrite LI. split; [exact I|]. replace (s * th - s * 0) with (s * th) in B by ring. eapply Rle_trans; [exact B|]. unfold size. cbn [fold_right].
  assert (0 <= / 10 ^ 20) by (left; apply Rinv_0_lt_compat, pow_lt; lra). pose proof (Rabs_pos s). set (u := / 10 ^ 20) in *. clearbody u. assert (0 <= u * Rabs s) by (now apply Rmult_le_pos). rewrite Rplus_0_r. nra.
Qed.

(** [occurs t eo e]: the energy [e] is reached inside the layer *)
Definition occurs (t : Material R) (eo : R -> outcome R) (e : R) : Prop := exists x, 0 <= x <= m_th t /\ eo x = Ok e.
(** cross sections between [s1] and [s2] for every constituent and every energy inside the layer *)
Definition between (cs : Z -> Z -> R -> Z -> Z -> outcome R) ap zp (t : Material R) eo s1 s2 : Prop :=
  forall el a e k, In el (m_atoms t) -> get_isotope_a (tZ el) 0 = Ok a -> occurs t eo e -> cs ap zp e a (tZ el) = Ok k -> s1 <= k <= s2.

Theorem C68_between cs eo ap zp t r e1 s1 s2 : solid t -> 0 < m_th t -> eo (m_th t) = Ok e1 -> 30 <= e1 -> 0 <= s1 -> between cs ap zp t eo s1 s2 ->
  nonreaction_core_N (F:=R) cs eo ap zp t = Ok r ->
  survival (number_density_cm2 t) (s2 * (1 + / 10 ^ 20)) <= r <= survival (number_density_cm2 t) (s1 * (1 - / 10 ^ 20)).
Proof.
  intros SO TH E1 E30 S1 B R0. unfold nonreaction_core_N in R0. rewrite E1 in R0. cbn [bind] in R0. unfold emin_reaction in R0. revert R0. numR.
  replace (Rlit 30.0) with 30 by (dec_norm; lra). replace (Rlit 0) with 0 by (dec_norm; lra). replace (Rlit 2.0) with 2 by (dec_norm; lra).
  destruct (Rltb_spec e1 30) as [L|L]; intros R0; [lra|].
  assert (NN : forall x s, 0 <= x <= m_th t -> sigma_r_N (F:=R) cs eo ap zp t x = Ok s -> s1 <= s <= s2).
  { intros x s X H. destruct (eo x) as [e|] eqn:EX; [|unfold sigma_r_N in H; rewrite EX in H; discriminate]. apply (sigma_mean cs eo ap zp t x e s); auto. intros el a k IN A K. apply (B el a e k IN A); [exists x; auto|exact K]. }
  destruct (sigma_r_N cs eo ap zp t 0) as [c0|] eqn:C0; cbn [bind] in R0; [|discriminate]. destruct (sigma_r_N cs eo ap zp t (m_th t)) as [c1|] eqn:C1; cbn [bind] in R0; [|discriminate].
  pose proof (NN 0 c0 ltac:(lra) C0) as P0. pose proof (NN (m_th t) c1 ltac:(lra) C1) as P1. destruct SO as (NE & M & FA).
  assert (AV : 0 < Avogadro (F:=R)) by (unfold Avogadro; numR; dec_norm; lra).
  assert (T20 : 0 < / 10 ^ 20 <= 1) by (split; [apply Rinv_0_lt_compat, pow_lt; lra|rewrite <- Rinv_1; apply Rinv_le_contravar; [lra|apply pow_R1_Rle; lra]]).
  set (u := / 10 ^ 20) in *.
  assert (ND : 0 < number_density_cm2 (F:=R) t) by (unfold number_density_cm2; numR; apply pos_quot; [apply Rmult_lt_0_compat; lra|exact M]).
  assert (R4 : Rlit 0.0001 = 1 / 10000) by (dec_norm; lra).
  assert (G : forall v, s1 * (1 - u) <= v <= s2 * (1 + u) -> survival (number_density_cm2 t) (s2 * (1 + u)) <= exp (- (number_density_cm2 t * v) * Rlit 0.0001) <= survival (number_density_cm2 t) (s1 * (1 - u))).
  { intros v V. rewrite R4. replace (- (number_density_cm2 t * v) * (1 / 10000)) with (- (number_density_cm2 t * v / 10000)) by field.
    fold (survival (number_density_cm2 t) v). split; apply survival_decreases; lra. }
  destruct (Rltb _ _); cbn [bind] in R0.
  - match type of R0 with Ok ?v = _ => assert (RE : r = v) by congruence end. rewrite RE. replace (number_density_cm2 t * (c0 + c1) / 2) with (number_density_cm2 t * ((c0 + c1) / 2)) by field. apply G. nra.
  - destruct (integrate _ _ _) as [i|] eqn:I; cbn [bind] in R0; [|discriminate].
    match type of R0 with Ok ?v = _ => assert (RE : r = v) by congruence end. rewrite RE.
    replace (Avogadro * i / m_M t) with (number_density_cm2 t * (i / m_th t)) by (unfold number_density_cm2; numR; field; lra). apply G.
    destruct (constant_integral s1 (m_th t) ltac:(lra)) as (i1 & I1 & B1). destruct (constant_integral s2 (m_th t) ltac:(lra)) as (i2 & I2 & B2). destruct C26_library as [IN LI]. rewrite LI in I, I1, I2.
    assert (H1 : i1 <= i) by (apply (C26_monotone _ (fun _ => Ok s1) (sigma_r_N cs eo ap zp t) 0 (m_th t) i1 i IN ltac:(lra)); [intros x a b X A H; injection A as <-; apply (NN x b ltac:(lra) H)|exact I1|exact I]).
    assert (H2 : i <= i2) by (apply (C26_monotone _ (sigma_r_N cs eo ap zp t) (fun _ => Ok s2) 0 (m_th t) i i2 IN ltac:(lra)); [intros x a b X A H; injection H as <-; apply (NN x a ltac:(lra) A)|exact I|exact I2]).
    fold u in B1, B2. rewrite (Rabs_pos_eq s1) in B1 by exact S1. rewrite (Rabs_pos_eq s2) in B2 by lra. apply Rabs_le2 in B1, B2.
    split; apply Rmult_le_reg_r with (m_th t); try exact TH; replace (i / m_th t * m_th t) with i by (field; lra); lra.
Qed.
Print Assumptions C68_between.

(** exactly the law of attenuation for a cross section that does not depend on the energy and on the constituent *)
Theorem C68_constant cs eo ap zp t r e1 s : solid t -> 0 < m_th t -> eo (m_th t) = Ok e1 -> 30 <= e1 -> 0 <= s -> between cs ap zp t eo s s ->
  nonreaction_core_N (F:=R) cs eo ap zp t = Ok r -> r = survival (number_density_cm2 t) s.
Proof.
  intros SO TH E1 E30 S0 B R0. unfold nonreaction_core_N in R0. rewrite E1 in R0. cbn [bind] in R0. unfold emin_reaction in R0. revert R0. numR.
  replace (Rlit 30.0) with 30 by (dec_norm; lra). replace (Rlit 0) with 0 by (dec_norm; lra). replace (Rlit 2.0) with 2 by (dec_norm; lra). replace (Rlit 0.05) with (5 / 100) by (dec_norm; lra).
  destruct (Rltb_spec e1 30) as [L|L]; intros R0; [lra|].
  assert (NN : forall x v, 0 <= x <= m_th t -> sigma_r_N (F:=R) cs eo ap zp t x = Ok v -> v = s).
  { intros x v X H. destruct (eo x) as [e|] eqn:EX; [|unfold sigma_r_N in H; rewrite EX in H; discriminate].
    assert (s <= v <= s); [|lra]. apply (sigma_mean cs eo ap zp t x e v); auto. intros el a k IN A K. apply (B el a e k IN A); [exists x; auto|exact K]. }
  destruct (sigma_r_N cs eo ap zp t 0) as [c0|] eqn:C0; cbn [bind] in R0; [|discriminate]. destruct (sigma_r_N cs eo ap zp t (m_th t)) as [c1|] eqn:C1; cbn [bind] in R0; [|discriminate].
  apply NN in C0; [|lra]. apply NN in C1; [|lra]. subst c0 c1. revert R0. replace (s - s) with 0 by ring. rewrite Rabs_R0. replace (0 / s) with 0 by (unfold Rdiv; ring).
  destruct (Rltb_spec 0 (5 / 100)); [|lra]. cbn [bind]. intros R0. match type of R0 with Ok ?v = _ => assert (RE : r = v) by congruence end. rewrite RE. unfold survival. f_equal.
  replace (Rlit 0.0001) with (1 / 10000) by (dec_norm; lra). field.
Qed.
Print Assumptions C68_constant.
(** nothing is computed for ions that leave the layer below 30 MeV/u *)
Theorem C68_slow cs eo ap zp t e1 : eo (m_th t) = Ok e1 -> e1 < 30 -> nonreaction_core_N (F:=R) cs eo ap zp t = Ok (-1).
Proof.
  intros E1 E30. unfold nonreaction_core_N. rewrite E1. cbn [bind]. unfold emin_reaction. numR. replace (Rlit 30.0) with 30 by (dec_norm; lra). replace (Rlit (-1.0)) with (-1) by (dec_norm; lra).
  destruct (Rltb_spec e1 30) as [L|L]; [reflexivity|lra].
Qed.
Print Assumptions C68_slow.

(** ** The public function *)
Lemma sigma_r_N_ok cs eo ap zp t x : (forall x, defined (eo x)) -> (forall a b e d f, defined (cs a b e d f)) -> defined (sigma_r_N (F:=R) cs eo ap zp t x).
Proof.
  intros HE HC. unfold sigma_r_N. destruct (HE x) as [e ->]. cbn [bind].
  match goal with |- defined (bind (ofold ?f ?l ?b) _) => assert (D : defined (ofold f l b)) end.
  { apply defined_ofold. intros b y _. destruct (isotope_small (tZ y)) as (a & -> & _). cbn [bind]. cbv zeta. destruct (HC ap zp e a (tZ y)) as [k ->]. cbn [bind]. apply defined_Ok. }
  destruct D as [v ->]. cbn [bind]. apply defined_Ok.
Qed.
(** for every ion and material for which the other functions are defined, and whatever was computed before: a cross section that always returns
    a value gives -1 below 30 MeV/u before or behind the layer, 1 without material, and otherwise a probability between those of the
    smallest and the largest cross section *)
Theorem C68_rate (junk : nat -> R * R) cs p t c w s1 s2 : world_ok w -> legit_p p -> legit_t t -> solid t ->
  (forall a b e d f, exists k, cs a b e d f = Ok k /\ s1 <= k <= s2) -> 0 <= s1 ->
  exists r w', nonreaction_rate_N junk cs p t c w = Ok (r, w') /\ world_ok w' /\
   (r = -1 \/ m_th t <= 0 /\ r = 1 \/ 0 < m_th t /\ survival (number_density_cm2 t) (s2 * (1 + / 10 ^ 20)) <= r <= survival (number_density_cm2 t) (s1 * (1 - / 10 ^ 20))) /\
   (pT p < 30 -> r = -1) /\ (30 <= pT p -> m_th t <= 0 -> r = 1).
Proof.
  intros W LP LT SO HC S1. unfold nonreaction_rate_N. unfold emin_reaction. numR.
  replace (Rlit 30.0) with 30 by (dec_norm; lra). replace (Rlit (-1.0)) with (-1) by (dec_norm; lra). replace (Rlit 0.0) with 0 by (dec_norm; lra). replace (Rlit 1.0) with 1 by (dec_norm; lra).
  destruct (Rltb_spec (pT p) 30) as [L|L]; [exists (-1), w; split; [reflexivity|]; split; [exact W|]; split; [now left|]; split; [auto|lra]|].
  destruct (Rleb_spec (m_th t) 0) as [L2|L2]; [exists 1, w; split; [reflexivity|]; split; [exact W|]; split; [right; left; auto|]; split; [lra|auto]|].
  destruct LP as [LZ LA]. destruct (lround_ok (pA p)) as (ap & EA & BA); [lra|]. destruct (lround_ok (pZ p)) as (zp & EZ & BZ); [lra|]. revert EA EZ. numR. intros -> ->. cbn [bind].
  destruct (lookup_total junk p t c w (conj LZ LA) LT W) as (d & w' & LK & OD & OW & _). rewrite LK. cbn [bind].
  set (eo := energy_out_sp (dp_range_spline d) (pT p)).
  assert (HE : forall x, defined (eo x)) by (intros x; unfold eo; now apply energy_out_sp_defined).
  assert (SD : forall x, defined (sigma_r_N cs eo ap zp t x)) by (intros x; apply sigma_r_N_ok; [exact HE|intros a b e d' f; destruct (HC a b e d' f) as (k & K & _); exists k; exact K]).
  destruct (HE (m_th t)) as [e1 E1]. assert (CD : defined (nonreaction_core_N (F:=R) cs eo ap zp t)).
  { unfold nonreaction_core_N. rewrite E1. cbn [bind]. destruct (fltb _ _); [apply defined_Ok|]. destruct (SD (lit 0)) as [c0 ->]. cbn [bind]. destruct (SD (m_th t)) as [c1 ->]. cbn [bind].
    destruct (fltb _ _); cbn [bind]; [apply defined_Ok|]. destruct (integrate_defined (sigma_r_N cs eo ap zp t) (lit 0) (m_th t) SD) as [i ->]. cbn [bind]. apply defined_Ok. }
  destruct CD as [r RC]. rewrite RC. cbn [bind]. exists r, w'. split; [reflexivity|]. split; [exact OW|]. split; [|split; lra].
  destruct (Rlt_le_dec e1 30) as [E30|E30].
  - left. rewrite (C68_slow cs eo ap zp t e1 E1 E30) in RC. congruence.
  - right; right. split; [lra|]. apply (C68_between cs eo ap zp t r e1 s1 s2); try assumption; try lra.
    intros el a e k _ _ _ K. destruct (HC ap zp e a (tZ el)) as (k' & K' & B). congruence.
Qed.
Print Assumptions C68_rate.

(** ** A concrete case: carbon ions in 2 g/cm2 of water with 1500 mb for both constituents, and with 250 mb for hydrogen and 1300 mb for oxygen *)
Definition flat : Z -> Z -> R -> Z -> Z -> outcome R := fun _ _ _ _ _ => Ok 1500.
Definition two_values : Z -> Z -> R -> Z -> Z -> outcome R := fun _ _ _ _ zt => Ok (if (zt =? 1)%Z then 250 else 1300).
Lemma water_solid : solid (water 2).
Proof. split; [discriminate|]; split; [|repeat (apply Forall_cons; [cbn; split; [|split; [lia|]]; dec_norm; lra|]); apply Forall_nil]; cbn; dec_norm; lra. Qed.
Example C68_case : (exists r, nonreaction_core_N flat (fun x => Ok (300 - 10 * x)) 12 6 (water 2) = Ok r /\ r = survival (number_density_cm2 (water 2)) 1500) /\
  (exists r, nonreaction_core_N two_values (fun x => Ok (300 - 10 * x)) 12 6 (water 2) = Ok r /\ survival (number_density_cm2 (water 2)) (1300 * (1 + / 10 ^ 20)) <= r < 1) /\
  nonreaction_core_N flat (fun x => Ok (40 - 10 * x)) 12 6 (water 2) = Ok (-1).
Proof.
  assert (TH : m_th (water 2) = 2) by reflexivity.
  assert (D : forall cs, (forall a b e d f, defined (cs a b e d f)) -> exists r, nonreaction_core_N (F:=R) cs (fun x => Ok (300 - 10 * x)) 12 6 (water 2) = Ok r).
  { intros cs H. unfold nonreaction_core_N. cbn [bind]. destruct (fltb _ _); [apply defined_Ok|]. assert (S := fun x => sigma_r_N_ok cs (fun x => Ok (300 - 10 * x)) 12 6 (water 2) x ltac:(intros; apply defined_Ok) H).
    destruct (S (lit 0)) as [c0 ->]. cbn [bind]. destruct (S (m_th (water 2))) as [c1 ->]. cbn [bind]. destruct (fltb _ _); cbn [bind]; [apply defined_Ok|].
    destruct (integrate_defined _ (lit 0) (m_th (water 2)) S) as [i ->]. cbn [bind]. apply defined_Ok. }
  split; [|split].
  - destruct (D flat) as [r RR]; [intros; apply defined_Ok|]. exists r. split; [exact RR|].
    apply (C68_constant flat (fun x => Ok (300 - 10 * x)) 12 6 (water 2) r 280); [apply water_solid|rewrite TH; lra|rewrite TH; f_equal; ring|lra|lra| |exact RR].
    intros el a e k _ _ _ K. injection K as <-. lra.
  - destruct (D two_values) as [r RR]; [intros; apply defined_Ok|]. exists r. split; [exact RR|].
    assert (BT : between two_values 12 6 (water 2) (fun x => Ok (300 - 10 * x)) 250 1300) by (intros el a e k _ _ _ K; injection K as <-; destruct (_ =? _)%Z; lra).
    assert (E1 : (fun x : R => Ok (300 - 10 * x)) (m_th (water 2)) = Ok 280) by (rewrite TH; f_equal; ring).
    destruct (C68_between two_values _ 12 6 (water 2) r 280 250 1300 water_solid ltac:(rewrite TH; lra) E1 ltac:(lra) ltac:(lra) BT RR) as [A B].
    split; [exact A|]. eapply Rle_lt_trans; [exact B|]. unfold survival. apply Rlt_le_trans with (exp 0); [|rewrite exp_0; lra]. apply exp_increasing.
    assert (ND : 0 < number_density_cm2 (water 2)) by (unfold number_density_cm2, Avogadro; numR; unfold water; cbn [m_M m_th]; dec_norm; lra).
    assert (T20 : / 10 ^ 20 <= 1 / 2) by (apply Rle_trans with (/ 2); [apply Rinv_le_contravar; lra|lra]).
    set (u := / 10 ^ 20) in *. clearbody u. set (n := number_density_cm2 _) in *. clearbody n. assert (0 < n * (250 * (1 - u))) by (apply Rmult_lt_0_compat; lra). lra.
  - apply (C68_slow flat (fun x => Ok (40 - 10 * x)) 12 6 (water 2) 20); [rewrite TH; f_equal; ring|lra].
Qed.

