(** * Properties C08-C10 in binary64: outgoing energy *)
From Flocq Require Import Core BinarySingleNaN PrimFloat.
From Coq Require Import ZArith Reals List Bool Lra Lia Floats SpecFloat.
From Verif Require Import Num NumR NumF Structures EnergyTable Spline Integrator Calculations NucData Reactions Storage Catima CacheProofs CacheFresh
  History KeyEq ApiCache BoundsProofs TotalProofs ApiTotal Cases EnergyOutProofs PropEnergyOut Binary64 Binary64Num PropGridFloat PropTableFloat PropResultFloat PropResult.
Import ListNotations.
Local Open Scope R_scope.

(** ** A finite difference: no operand was infinite or NaN, and nothing overflowed *)
Lemma sub_fin_inv x y : fin (x - y) -> fin x /\ fin y /\ val (x - y) = rnd (val x - val y).
Proof.
  unfold fin, val. rewrite sub_equiv. intros H.
  assert (XY : BinarySingleNaN.is_finite (Prim2B x) = true /\ BinarySingleNaN.is_finite (Prim2B y) = true).
  { destruct (Prim2B x) as [s|s| |s m e B], (Prim2B y) as [s'|s'| |s' m' e' B']; split; try reflexivity; exfalso; revert H; cbn; try discriminate; destruct s; try discriminate; destruct s'; discriminate. }
  destruct XY as [X Y]. split; [exact X|]. split; [exact Y|].
  pose proof (Bminus_correct 53 1024 eq_refl eq_refl mode_NE (Prim2B x) (Prim2B y) X Y) as C.
  match type of C with if ?b then _ else _ => destruct b end; [exact (proj1 C)|].
  exfalso. destruct C as [C _]. pose proof (eq_trans (eq_sym (f_equal is_finite_SF C)) (eq_trans (is_finite_SF_B2SF _ _ _) H)) as Q. revert Q. cbn. discriminate.
Qed.
(** a magnitude below a finite bound is finite *)
Lemma abs_ltb_fin x e : fin e -> (abs x <? e)%float = true -> fin x /\ Rabs (val x) < val e.
Proof.
  intros E H. assert (X : fin x).
  { unfold fin in *. rewrite ltb_equiv, abs_equiv in H. destruct (Prim2B x) as [s|s| |s m ex B]; try reflexivity; exfalso; revert H; [|discriminate]. destruct (Prim2B e) as [s'|s'| |s' m' e' B']; try discriminate; cbn; destruct s'; discriminate. }
  split; [exact X|]. destruct (abs_val x X) as [A V]. destruct (ltb_val (abs x) e A E) as [L|L]; [|discriminate]. lra.
Qed.

(** ** Any arithmetic: what the result can be *)
Section Class.
  Context {F : Type} {N : Num F}.
  Definition small_residual (rT rx th : F) : Prop := fltb (fabs (fsub (fsub rT rx) th)) Eout_th_epsilon = true.
  Lemma newton_class_any (rng drv : F -> outcome F) r th : forall k e d x, newton rng drv r th k e d = Ok x ->
    x = lit 0.0 \/ x = lit (-1) \/ exists rx, rng x = Ok rx /\ small_residual r rx th /\ (x = e \/ fltb x Ezero = false).
  Proof.
    induction k as [|k IH]; intros e d x H; cbn [newton] in H; apply bind_ok in H; destruct H as (re & E & H); cbv zeta in H.
    - destruct (fltb (fabs _) _) eqn:S; [apply ok_inj in H; subst; right; right; exists re; auto|].
      destruct (fltb _ Ezero) eqn:Q; [apply ok_inj in H; auto|]. apply bind_ok in H. destruct H as (d' & _ & H). apply ok_inj in H. auto.
    - destruct (fltb (fabs _) _) eqn:S; [apply ok_inj in H; subst; right; right; exists re; auto|].
      destruct (fltb _ Ezero) eqn:Q; [apply ok_inj in H; auto|]. apply bind_ok in H. destruct H as (d' & _ & H).
      destruct (IH _ _ _ H) as [H'|[H'|(rx & X1 & X2 & [->|X3])]]; auto; right; right; exists rx; auto.
  Qed.
End Class.

Lemma eps_val lm : fin (Eout_th_epsilon (N:=NumF lm)) /\ val (Eout_th_epsilon (N:=NumF lm)) <= 1 / 100000 * (1 + / 10 ^ 15).
Proof. assert (A : app (Eout_th_epsilon (N:=NumF lm)) (1 / 100000) (/ 10 ^ 21)) by (unfold Eout_th_epsilon; closed_double (lit (Num:=NumF lm) 1e-5); lra). pose proof (app_bounds _ _ _ A). split; [exact (app_fin _ _ _ A)|lra]. Qed.

(** ** C08: the three kinds of result; the residual in real numbers *)
Definition tolF (th : float) : R := 1 / 100000 * (1 + / 10 ^ 9) + 2 * u * Rabs (val th).
Lemma residual_small lm rT rx th : small_residual (N:=NumF lm) rT rx th -> fin rT /\ fin rx /\ fin th /\ Rabs (val rT - val rx - val th) < tolF th.
Proof.
  intros H. unfold small_residual in H. cbn [fltb fabs fsub NumF] in H. destruct (eps_val lm) as [FE BE]. destruct (abs_ltb_fin _ _ FE H) as [FR BR].
  destruct (sub_fin_inv _ _ FR) as (F1 & FT & V1). destruct (sub_fin_inv _ _ F1) as (FA & FX & V2). split; [exact FA|]. split; [exact FX|]. split; [exact FT|].
  rewrite V1, V2 in BR. clear V1 V2 F1 FR H. set (a := val rT - val rx) in *. set (t := val th) in *. pose proof (rnd_error a) as E1. set (b := rnd a) in *. pose proof (rnd_error (b - t)) as E2. set (c := rnd (b - t)) in *. pose proof tiny_le as TL. assert (U0 : 0 < u < / 10 ^ 15) by (unfold u; lra).
  unfold tolF. fold t. clearbody a t b c. set (e := val Eout_th_epsilon) in *. clearbody e. clear - E1 E2 BR BE TL U0.
  assert (E0 : 0 <= e) by (pose proof (Rabs_pos c); lra).
  assert (B1 : Rabs (b - t) <= e + 2 * / 10 ^ 15 * e + 4 * / 10 ^ 30). { assert (Rabs (b - t) <= Rabs c + Rabs (c - (b - t))) by (replace (b - t) with (c - (c - (b - t))) at 1 by ring; eapply Rle_trans; [apply Rabs_triang|]; rewrite Rabs_Ropp; lra). pose proof (Rabs_pos (b - t)). set (z := Rabs (b - t)) in *. clearbody z. assert (u * z <= / 10 ^ 15 * z) by (apply Rmult_le_compat_r; lra). lra. }
  assert (B2 : Rabs a <= Rabs t + e + 4 * / 10 ^ 15 * e + / 10 ^ 14 * Rabs t + / 10 ^ 20).
  { assert (Rabs a <= Rabs t + Rabs (b - t) + Rabs (b - a)). { replace a with (t + (b - t) - (b - a)) at 1 by ring. eapply Rle_trans; [apply Rabs_triang|]. rewrite Rabs_Ropp. apply Rplus_le_compat_r. apply Rabs_triang. } pose proof (Rabs_pos a). pose proof (Rabs_pos t). set (z := Rabs a) in *. clearbody z. assert (u * z <= / 10 ^ 15 * z) by (apply Rmult_le_compat_r; lra). lra. }
  assert (B3 : Rabs (a - t) <= Rabs (b - t) + Rabs (b - a)) by (replace (a - t) with ((b - t) - (b - a)) by ring; eapply Rle_trans; [apply Rabs_triang|]; rewrite Rabs_Ropp; lra).
  pose proof (Rabs_pos t). pose proof (Rabs_pos a). assert (B4 : u * Rabs a <= u * (2 * Rabs t + 2 * e + / 10 ^ 20)) by (apply Rmult_le_compat_l; lra). assert (B5 : u * (2 * e + / 10 ^ 20) <= / 10 ^ 15 * (2 * e + / 10 ^ 20)). { pose proof (Rabs_pos c). apply Rmult_le_compat_r; lra. } lra.
Qed.

Theorem C08_binary64 lm (rng drv : float -> outcome float) T th x :
  energy_out_fn (N:=NumF lm) rng drv T th = Ok x ->
  exists rT, rng T = Ok rT /\
    (((rT <=? th)%float = true /\ x = 0%float) \/
     ((rT <=? th)%float = false /\ (x = 0%float \/ x = (-1)%float \/
        exists rx, rng x = Ok rx /\ fin rT /\ fin rx /\ fin th /\ val th < val rT /\ Rabs (val rT - val rx - val th) < tolF th))).
Proof.
  unfold energy_out_fn. intros H. apply bind_ok in H. destruct H as (rT & E & H). apply bind_ok in H. destruct H as (d & D & H). cbv zeta in H. cbn [fleb NumF] in H. exists rT. split; [exact E|].
  destruct (rT <=? th)%float eqn:L; [left; split; [reflexivity|]; apply ok_inj in H; rewrite <- H; vm_compute; reflexivity|].
  right. split; [reflexivity|]. apply newton_class_any in H. destruct H as [->|[->|(rx & X1 & X2 & _)]]; [left; vm_compute; reflexivity|right; left; vm_compute; reflexivity|].
  right. right. exists rx. split; [exact X1|]. destruct (residual_small lm _ _ _ X2) as (F1 & F2 & F3 & B). split; [exact F1|]. split; [exact F2|]. split; [exact F3|]. split; [|exact B].
  destruct (leb_val rT th F1 F3) as [Q|Q]; [discriminate|lra].
Qed.
Print Assumptions C08_binary64.

(** the library call, in any well-formed cache, against range of the same arguments *)
Theorem C08_api_binary64 lm (junk : nat -> float * float) w p t c e w' :
  wf w -> self_key (N:=NumF lm) p t c -> energy_out (N:=NumF lm) junk p t c w = Ok (e, w') ->
  exists rT, range (N:=NumF lm) junk p t c w' = Ok (rT, w') /\
    (((rT <=? m_th t)%float = true /\ e = 0%float) \/
     ((rT <=? m_th t)%float = false /\ (e = 0%float \/ e = (-1)%float \/
        exists re, range (N:=NumF lm) junk (at_T p e) t c w' = Ok (re, w') /\ Rabs (val rT - val re - val (m_th t)) < tolF (m_th t)))).
Proof.
  intros W SK H. unfold energy_out in H. apply bind_ok in H. destruct H as ([d w1] & L & H). apply bind_ok in H. destruct H as (e' & H & H'). apply ok_inj in H'. apply pair_equal_spec in H'. destruct H' as [-> ->].
  apply C08_binary64 in H. destruct H as (rT & HT & H).
  assert (LA : forall x, lookup (N:=NumF lm) junk (at_T p x) t c w' = Ok (d, w')).
  { intros x. destruct (at_T_thickness p t) as (_ & ET). rewrite ET. apply (lookup_again (N:=NumF lm) junk w p t c d w' x (m_th t) W SK L). }
  assert (RA : forall x, range (N:=NumF lm) junk (at_T p x) t c w' = (r <- interp_eval (N:=NumF lm) (dp_range_spline d) x ;; Ok (r, w'))).
  { intros x. unfold range. rewrite LA. cbn [bind at_T pT]. reflexivity. }
  exists rT. split.
  - destruct (at_T_thickness p t) as (EP & _). rewrite EP, RA, HT. reflexivity.
  - destruct H as [H|(H1 & [H|[H|(re & H & _ & _ & _ & _ & B)]])]; [left; exact H|right; auto|right; auto|].
    right. split; [exact H1|]. right. right. exists re. rewrite RA, H. split; [reflexivity|exact B].
Qed.
Print Assumptions C08_api_binary64.

(** ** C09: a corrected energy is 0, -1 or at least 1e-3 *)
Theorem C09_binary64 lm (rng drv : float -> outcome float) T th x rT d r0 :
  rng T = Ok rT -> drv T = Ok d -> (rT <=? th)%float = false -> rng (T - th * (1 / d))%float = Ok r0 ->
  (abs (rT - r0 - th) <? Eout_th_epsilon (N:=NumF lm))%float = false -> energy_out_fn (N:=NumF lm) rng drv T th = Ok x ->
  x = 0%float \/ x = (-1)%float \/ ((x <? Ezero (N:=NumF lm))%float = false /\ (fin x -> 1 / 1000 <= val x)).
Proof.
  intros HT HD L H0 S H. unfold energy_out_fn in H. rewrite HT, HD in H. cbn [bind fleb NumF] in H. cbv zeta in H. rewrite L in H.
  replace (fdiv (lit (Num:=NumF lm) 1.0) d) with (1 / d)%float in H by (cbn [fdiv NumF]; f_equal; vm_compute; reflexivity).
  apply newton_class_any in H. destruct H as [->|[->|(rx & X1 & X2 & [E|X3])]]; [left; vm_compute; reflexivity|right; left; vm_compute; reflexivity| |].
  - exfalso. subst x. cbn [fsub fmul NumF] in X1. rewrite H0 in X1. apply ok_inj in X1. subst rx. unfold small_residual in X2. cbn [fltb fabs fsub NumF] in X2. rewrite S in X2. discriminate X2.
  - right. right. cbn [fltb NumF] in X3. split; [exact X3|]. intros FX.
    assert (A : fin (Ezero (N:=NumF lm)) /\ 1 / 1000 <= val (Ezero (N:=NumF lm))).
    { assert (A : app (Ezero (N:=NumF lm)) (1000000000000000020816 / 1000000000000000000000000) (/ 10 ^ 23)) by (unfold Ezero; cbn [lit NumF]; closed_double (F_lit 1e-3); lra). pose proof (app_bounds _ _ _ A). split; [exact (app_fin _ _ _ A)|lra]. }
    destruct (ltb_val x _ FX (proj1 A)) as [Q|Q]; [discriminate X3|]. lra.
Qed.
Print Assumptions C09_binary64.

(** ** C10: splitting *)
Inductive passesF (lm : Libm) (rng drv : float -> outcome float) : float -> list float -> float -> Prop :=
| passesF_none T : passesF lm rng drv T [] T
| passesF_layer T th ths e e' :
    energy_out_fn (N:=NumF lm) rng drv T th = Ok e -> e <> 0%float -> e <> (-1)%float ->
    passesF lm rng drv e ths e' -> passesF lm rng drv T (th :: ths) e'.

Theorem C10_binary64 lm (rng drv : float -> outcome float) T ths e : passesF lm rng drv T ths e -> ths <> [] ->
  exists rT re, rng T = Ok rT /\ rng e = Ok re /\ fin rT /\ fin re /\
    Rabs (val rT - val re - PropEnergyOut.total (map val ths)) < INR (length ths) * (1 / 100000 * (1 + / 10 ^ 9)) + 2 * u * PropEnergyOut.total (map (fun t => Rabs (val t)) ths).
Proof.
  intros P. induction P as [T|T th ths e e' H E0 E1 P IH]; intros NE; [contradiction|].
  apply C08_binary64 in H. destruct H as (rT & HT & [(_ & H)|(_ & [H|[H|(re & He & F1 & F2 & F3 & _ & B)]])]); try contradiction. unfold tolF in B.
  destruct ths as [|th' ths].
  - inversion P; subst. exists rT, re. split; [exact HT|]. split; [exact He|]. split; [exact F1|]. split; [exact F2|]. unfold PropEnergyOut.total. cbn [map fold_right length INR]. rewrite !Rplus_0_r. lra.
  - destruct IH as (re2 & re' & He2 & He' & F4 & F5 & B'); [discriminate|]. rewrite He in He2. apply ok_inj in He2. subst re2. exists rT, re'. split; [exact HT|]. split; [exact He'|]. split; [exact F1|]. split; [exact F5|].
    change (length (th :: th' :: ths)) with (S (length (th' :: ths))). rewrite S_INR. cbn [map]. unfold PropEnergyOut.total in *. cbn [fold_right] in *. cbn [map fold_right] in B'.
    set (s := val th' + fold_right Rplus 0 (map val ths)) in *. set (s' := Rabs (val th') + fold_right Rplus 0 (map (fun t => Rabs (val t)) ths)) in *. set (n := INR (length (th' :: ths))) in *.
    replace (val rT - val re' - (val th + s)) with ((val rT - val re - val th) + (val re - val re' - s)) by ring.
    pose proof (Rabs_triang (val rT - val re - val th) (val re - val re' - s)). lra.
Qed.
Print Assumptions C10_binary64.

(** ** The hypotheses are met *)
Definition world60 : world float :=
  mkW (repeat (mkDP carbonF (waterF 1) (Config0 (N:=NumF rough_libm)) [] [] [] (Some (const_spline 1)) (Some (const_spline 0)) (Some (const_spline 0))) 60) 0 (Config0 (N:=NumF rough_libm)) 0.
Lemma outF_value : match energy_out (N:=NumF rough_libm) (fun _ => (0%float, 0%float)) carbonF (waterF 0.25) (Config0 (N:=NumF rough_libm)) world60 with Ok (e, _) => Some e | UB _ => None end = Some 68%float.
Proof. lazy. reflexivity. Qed.
Example C08_binary64_case : wf world60 /\ self_key (N:=NumF rough_libm) carbonF (waterF 0.25) (Config0 (N:=NumF rough_libm)) /\
  exists w', energy_out (N:=NumF rough_libm) (fun _ => (0%float, 0%float)) carbonF (waterF 0.25) (Config0 (N:=NumF rough_libm)) world60 = Ok (68%float, w').
Proof.
  split; [split; [reflexivity|cbn; lia]|]. split; [split; [vm_compute; reflexivity|split; vm_compute; reflexivity]|].
  pose proof outF_value as V. destruct (energy_out _ _ _ _ _) as [[e w']|]; [|discriminate]. injection V as ->. exists w'. reflexivity.
Qed.
(** range x^2/16 with derivative x/8: from 8 through 1 and 1 *)
Definition sq_rng (x : float) : outcome float := Ok (x * x / 16)%float.
Definition sq_drv (x : float) : outcome float := Ok (x / 8)%float.
Example C10_binary64_case lm : exists e1 e2, energy_out_fn (N:=NumF lm) sq_rng sq_drv 8%float 1%float = Ok e1 /\ energy_out_fn (N:=NumF lm) sq_rng sq_drv e1 1%float = Ok e2 /\ passesF lm sq_rng sq_drv 8%float [1; 1]%float e2.
Proof.
  destruct (energy_out_fn (N:=NumF lm) sq_rng sq_drv 8%float 1%float) as [e1|] eqn:E1; [|exfalso; revert E1; vm_compute; discriminate].
  assert (E1' := E1). vm_compute in E1'. injection E1' as E1'.
  destruct (energy_out_fn (N:=NumF lm) sq_rng sq_drv e1 1%float) as [e2|] eqn:E2; [|exfalso; rewrite <- E1' in E2; revert E2; vm_compute; discriminate].
  exists e1, e2. split; [reflexivity|]. split; [exact E2|]. assert (E2' := E2). rewrite <- E1' in E2'. vm_compute in E2'. injection E2' as E2'.
  eapply passesF_layer; [exact E1| | |eapply passesF_layer; [exact E2| | |apply passesF_none]].
  all: intros Q.
  1,2: rewrite Q in E1'; apply (f_equal Prim2SF) in E1'; vm_compute in E1'; discriminate E1'.
  all: rewrite Q in E2'; apply (f_equal Prim2SF) in E2'; vm_compute in E2'; discriminate E2'.
Qed.
(** there a correction was needed *)
Example C09_binary64_case lm : (4 <=? 1)%float = false /\ sq_rng 8%float = Ok 4%float /\ sq_drv 8%float = Ok 1%float /\
  exists r0, sq_rng (8 - 1 * (1 / 1))%float = Ok r0 /\ (abs (4 - r0 - 1) <? Eout_th_epsilon (N:=NumF lm))%float = false.
Proof. split; [reflexivity|]. split; [reflexivity|]. split; [reflexivity|]. eexists. split; [reflexivity|]. vm_compute. reflexivity. Qed.
