(** * Rounding errors of binary64: the operations of [NumF] in terms of real numbers

    Flocq's account of IEEE arithmetic, connected to Coq's primitive floats by Flocq.IEEE754.PrimFloat. *)
From Flocq Require Import Core BinarySingleNaN PrimFloat Relative.
From Coq Require Import ZArith Reals Floats SpecFloat Bool Lia Lra.
Local Open Scope R_scope.

(** the real number a finite double stands for *)
Definition val (x : float) : R := B2R (Prim2B x).
Definition fin (x : float) : Prop := BinarySingleNaN.is_finite (Prim2B x) = true.
(** rounding to nearest, ties to even, with gradual underflow and no upper limit *)
Definition rnd (r : R) : R := round radix2 (FLT_exp (-1074) 53) ZnearestE r.

Definition u : R := / 9007199254740992.          (* 2^-53 *)
Definition tiny : R := bpow radix2 (-1075).
Definition small : R := bpow radix2 (-1022).
Definition big : R := bpow radix2 1023.

Lemma u_pos : 0 < u. Proof. unfold u. lra. Qed.
Lemma tiny_pos : 0 < tiny. Proof. apply bpow_gt_0. Qed.
Lemma small_pos : 0 < small. Proof. apply bpow_gt_0. Qed.
Lemma u_bpow : / 2 * bpow radix2 (-53 + 1) = u.
Proof. unfold u. change (-53 + 1)%Z with (-52)%Z. simpl. lra. Qed.

#[local] Instance prec53 : Prec_gt_0 53. Proof. unfold Prec_gt_0. lia. Qed.
#[local] Instance vexp : Valid_exp (FLT_exp (-1074) 53) := FLT_exp_valid (-1074) 53.
#[local] Instance mexp : Monotone_exp (FLT_exp (-1074) 53) := FLT_exp_monotone (-1074) 53.

Lemma rnd_le a b : a <= b -> rnd a <= rnd b.
Proof. intros H. unfold rnd. apply round_le; auto with typeclass_instances. Qed.
Lemma rnd_0 : rnd 0 = 0.
Proof. unfold rnd. apply round_0; auto with typeclass_instances. Qed.
Lemma rnd_opp a : rnd (- a) = - rnd a.
Proof. unfold rnd. apply round_NE_opp. Qed.
Lemma rnd_ge_0 a : 0 <= a -> 0 <= rnd a.
Proof. intros H. rewrite <- rnd_0. now apply rnd_le. Qed.
Lemma rnd_le_0 a : a <= 0 -> rnd a <= 0.
Proof. intros H. rewrite <- rnd_0. now apply rnd_le. Qed.
Lemma rnd_bpow e : (-1074 <= e)%Z -> rnd (bpow radix2 e) = bpow radix2 e.
Proof. intros H. unfold rnd. apply round_generic; auto with typeclass_instances. apply generic_format_FLT_bpow; auto with typeclass_instances. Qed.
Lemma rnd_val x : rnd (val x) = val x.
Proof. unfold rnd, val. apply round_generic; auto with typeclass_instances. exact (generic_format_B2R 53 1024 (Prim2B x)). Qed.

(** the error of one rounding *)
Lemma rnd_error a : Rabs (rnd a - a) <= u * Rabs a + tiny.
Proof.
  destruct (error_N_FLT radix2 (-1074) 53 ltac:(lia) (fun x => negb (Z.even x)) a) as (eps & eta & A & B & C & D).
  unfold rnd. rewrite D. change (Rabs eps <= / 2 * bpow radix2 (-53 + 1)) in A. rewrite u_bpow in A. replace (/ 2 * bpow radix2 (-1074)) with tiny in B.
  2: { unfold tiny. change (-1075)%Z with (-1 + -1074)%Z. rewrite bpow_plus. simpl (bpow radix2 (-1)). lra. }
  replace (a * (1 + eps) + eta - a) with (eps * a + eta) by ring.
  eapply Rle_trans; [apply Rabs_triang|]. rewrite Rabs_mult. apply Rplus_le_compat; [|exact B]. apply Rmult_le_compat_r; [apply Rabs_pos|exact A].
Qed.
Lemma rnd_relative a : small <= Rabs a -> Rabs (rnd a - a) <= u * Rabs a.
Proof. intros H. rewrite <- u_bpow. apply (relative_error_N_FLT radix2 (-1074) 53 ltac:(reflexivity) (fun x => negb (Z.even x)) a). exact H. Qed.

Lemma rnd_small a : Rabs a <= big -> Rlt_bool (Rabs (rnd a)) (bpow radix2 1024) = true.
Proof.
  intros H. apply Rlt_bool_true. apply Rle_lt_trans with (bpow radix2 1023); [|apply bpow_lt; lia].
  apply Rabs_le. apply Rabs_le_inv in H. destruct H as [H1 H2].
  assert (E : rnd big = bpow radix2 1023) by (apply rnd_bpow; lia). split.
  - rewrite <- E, <- rnd_opp. now apply rnd_le.
  - rewrite <- E. now apply rnd_le.
Qed.

(** ** The operations *)
Lemma add_val x y : fin x -> fin y -> Rabs (val x + val y) <= big -> fin (x + y) /\ val (x + y) = rnd (val x + val y).
Proof.
  intros X Y H. unfold fin, val. rewrite add_equiv.
  pose proof (Bplus_correct 53 1024 eq_refl eq_refl mode_NE (Prim2B x) (Prim2B y) X Y) as C. 
  pose proof (rnd_small _ H) as S. match type of C with if ?b then _ else _ => assert (E : b = true) by exact S; rewrite E in C end. destruct C as (A & B & _). split; [exact B|exact A].
Qed.
Lemma sub_val x y : fin x -> fin y -> Rabs (val x - val y) <= big -> fin (x - y) /\ val (x - y) = rnd (val x - val y).
Proof.
  intros X Y H. unfold fin, val. rewrite sub_equiv.
  pose proof (Bminus_correct 53 1024 eq_refl eq_refl mode_NE (Prim2B x) (Prim2B y) X Y) as C. 
  pose proof (rnd_small _ H) as S. match type of C with if ?b then _ else _ => assert (E : b = true) by exact S; rewrite E in C end. destruct C as (A & B & _). split; [exact B|exact A].
Qed.
Lemma mul_val x y : fin x -> fin y -> Rabs (val x * val y) <= big -> fin (x * y) /\ val (x * y) = rnd (val x * val y).
Proof.
  intros X Y H. unfold fin, val. rewrite mul_equiv.
  pose proof (Bmult_correct 53 1024 eq_refl eq_refl mode_NE (Prim2B x) (Prim2B y)) as C. 
  pose proof (rnd_small _ H) as S. match type of C with if ?b then _ else _ => assert (E : b = true) by exact S; rewrite E in C end. destruct C as (A & B & _). split; [|exact A]. refine (eq_trans B _). exact (f_equal2 andb X Y).
Qed.
Lemma div_val x y : fin x -> val y <> 0 -> Rabs (val x / val y) <= big -> fin (x / y) /\ val (x / y) = rnd (val x / val y).
Proof.
  intros X Y H. unfold fin, val. rewrite div_equiv.
  pose proof (Bdiv_correct 53 1024 eq_refl eq_refl mode_NE (Prim2B x) (Prim2B y) Y) as C. 
  pose proof (rnd_small _ H) as S. match type of C with if ?b then _ else _ => assert (E : b = true) by exact S; rewrite E in C end. destruct C as (A & B & _). split; [|exact A]. exact (eq_trans B X).
Qed.
Lemma sqrt_val x : fin x -> 0 <= val x -> fin (PrimFloat.sqrt x) /\ val (PrimFloat.sqrt x) = rnd (R_sqrt.sqrt (val x)).
Proof.
  intros X Y. unfold fin, val in *. rewrite sqrt_equiv.
  destruct (Bsqrt_correct 53 1024 eq_refl eq_refl mode_NE (Prim2B x)) as (A & B & _). split; [|exact A]. refine (eq_trans B _).
  destruct (Prim2B x) as [s|s| |s m e H]; try discriminate; [reflexivity|]. destruct s; [|reflexivity].
  exfalso. cbn [B2R] in Y. apply Rle_not_lt in Y. apply Y. apply F2R_lt_0. reflexivity.
Qed.
Lemma opp_val x : fin x -> fin (- x) /\ val (- x) = - val x.
Proof. intros X. unfold fin, val. rewrite opp_equiv, is_finite_Bopp, B2R_Bopp. split; [exact X|reflexivity]. Qed.
Lemma abs_val x : fin x -> fin (abs x) /\ val (abs x) = Rabs (val x).
Proof. intros X. unfold fin, val. rewrite abs_equiv, is_finite_Babs, B2R_Babs. split; [exact X|reflexivity]. Qed.

(** ** The comparisons *)
Lemma ltb_val x y : fin x -> fin y -> reflect (val x < val y) (x <? y)%float.
Proof. intros X Y. rewrite ltb_equiv. unfold val. rewrite (Bltb_correct _ _ _ _ X Y). pose proof (Rlt_bool_spec (B2R (Prim2B x)) (B2R (Prim2B y))) as P. destruct (Rlt_bool (B2R (Prim2B x)) (B2R (Prim2B y))); constructor; inversion P; lra. Qed.
Lemma leb_val x y : fin x -> fin y -> reflect (val x <= val y) (x <=? y)%float.
Proof. intros X Y. rewrite leb_equiv. unfold val. rewrite (Bleb_correct _ _ _ _ X Y). pose proof (Rle_bool_spec (B2R (Prim2B x)) (B2R (Prim2B y))) as P. destruct (Rle_bool (B2R (Prim2B x)) (B2R (Prim2B y))); constructor; inversion P; lra. Qed.
Lemma eqb_val x y : fin x -> fin y -> reflect (val x = val y) (x =? y)%float.
Proof. intros X Y. rewrite eqb_equiv. unfold val. rewrite (Beqb_correct _ _ _ _ X Y). pose proof (Req_bool_spec (B2R (Prim2B x)) (B2R (Prim2B y))) as P. destruct (Req_bool (B2R (Prim2B x)) (B2R (Prim2B y))); constructor; inversion P; lra. Qed.

(** ** Closed doubles: the value by computation *)
Definition SFR (x : spec_float) : R :=
  match x with
  | S754_finite s m e => IZR (if s then Zneg m else Zpos m) * (if (0 <=? e)%Z then IZR (2 ^ e) else / IZR (2 ^ (- e)))
  | _ => 0
  end.
Lemma val_SF x : val x = SFR (Prim2SF x).
Proof.
  unfold val. rewrite <- B2SF_Prim2B. destruct (Prim2B x) as [s|s| |s m e H]; try reflexivity. cbn [B2R B2SF SFR]. unfold F2R. cbn [Fnum Fexp].
  replace (cond_Zopp s (Zpos m)) with (if s then Zneg m else Zpos m) by (destruct s; reflexivity). apply f_equal. destruct (Z.leb_spec 0 e).
  - rewrite <- IZR_Zpower by assumption. reflexivity.
  - replace e with (- (- e))%Z at 1 by lia. rewrite bpow_opp, <- IZR_Zpower by lia. reflexivity.
Qed.
Lemma fin_SF x : (match Prim2SF x with S754_zero _ | S754_finite _ _ _ => True | _ => False end) -> fin x.
Proof. unfold fin. rewrite <- B2SF_Prim2B. destruct (Prim2B x); cbn; tauto. Qed.
Lemma SF_fin x : fin x -> (exists s, Prim2SF x = S754_zero s) \/ (exists s m e, Prim2SF x = S754_finite s m e).
Proof. unfold fin. rewrite <- B2SF_Prim2B. destruct (Prim2B x) as [s|s| |s m e H]; cbn; try discriminate; intros _; [left|right]; eauto. Qed.

(** ** Approximation: x is within e of r *)
Definition app (x : float) (r e : R) : Prop := fin x /\ Rabs (val x - r) <= e.
Lemma app_weaken x r e e' : app x r e -> e <= e' -> app x r e'.
Proof. intros [A B] H. split; [exact A|lra]. Qed.
Lemma app_fin x r e : app x r e -> fin x. Proof. now intros [A _]. Qed.
Lemma app_exact x : fin x -> app x (val x) 0.
Proof. intros H. split; [exact H|]. replace (val x - val x) with 0 by ring. rewrite Rabs_R0. lra. Qed.
Lemma app_bounds x r e : app x r e -> r - e <= val x <= r + e.
Proof. intros [_ B]. apply Rabs_le_inv in B. lra. Qed.
Lemma app_move x r e r' d : app x r e -> Rabs (r - r') <= d -> app x r' (e + d).
Proof. intros [A B] H. split; [exact A|]. replace (val x - r') with ((val x - r) + (r - r')) by ring. eapply Rle_trans; [apply Rabs_triang|]. lra. Qed.

Lemma rnd_app a r e : Rabs (a - r) <= e -> Rabs (rnd a - r) <= e + (u * (Rabs r + e) + tiny).
Proof.
  intros H. replace (rnd a - r) with ((rnd a - a) + (a - r)) by ring. eapply Rle_trans; [apply Rabs_triang|]. 
  pose proof (rnd_error a) as E. assert (Rabs a <= Rabs r + e). { replace a with (r + (a - r)) by ring. eapply Rle_trans; [apply Rabs_triang|]. lra. }
  pose proof u_pos. nra.
Qed.
Lemma near_abs a r e : Rabs (a - r) <= e -> Rabs a <= Rabs r + e.
Proof. intros H. replace a with (r + (a - r)) by ring. eapply Rle_trans; [apply Rabs_triang|]. lra. Qed.

Lemma app_add x y a b ea eb : app x a ea -> app y b eb -> Rabs (a + b) + (ea + eb) <= big ->
  app (x + y) (a + b) ((ea + eb) + (u * (Rabs (a + b) + (ea + eb)) + tiny)).
Proof.
  intros [X A] [Y B] H. assert (Q : Rabs (val x + val y - (a + b)) <= ea + eb).
  { replace (val x + val y - (a + b)) with ((val x - a) + (val y - b)) by ring. eapply Rle_trans; [apply Rabs_triang|]. lra. }
  pose proof (near_abs _ _ _ Q). destruct (add_val x y X Y ltac:(lra)) as [F V]. split; [exact F|]. rewrite V. now apply rnd_app.
Qed.
Lemma app_sub x y a b ea eb : app x a ea -> app y b eb -> Rabs (a - b) + (ea + eb) <= big ->
  app (x - y) (a - b) ((ea + eb) + (u * (Rabs (a - b) + (ea + eb)) + tiny)).
Proof.
  intros [X A] [Y B] H. assert (Q : Rabs (val x - val y - (a - b)) <= ea + eb).
  { replace (val x - val y - (a - b)) with ((val x - a) + - (val y - b)) by ring. eapply Rle_trans; [apply Rabs_triang|]. rewrite Rabs_Ropp. lra. }
  pose proof (near_abs _ _ _ Q). destruct (sub_val x y X Y ltac:(lra)) as [F V]. split; [exact F|]. rewrite V. now apply rnd_app.
Qed.
Lemma app_mul x y a b ea eb : app x a ea -> app y b eb -> let e := ea * Rabs b + eb * Rabs a + ea * eb in Rabs (a * b) + e <= big ->
  app (x * y) (a * b) (e + (u * (Rabs (a * b) + e) + tiny)).
Proof.
  intros [X A] [Y B] e H. assert (Q : Rabs (val x * val y - a * b) <= e).
  { replace (val x * val y - a * b) with ((val x - a) * b + (val y - b) * a + (val x - a) * (val y - b)) by ring.
    unfold e. eapply Rle_trans; [apply Rabs_triang|]. apply Rplus_le_compat; [eapply Rle_trans; [apply Rabs_triang|]; apply Rplus_le_compat|]; rewrite Rabs_mult; apply Rmult_le_compat; try apply Rabs_pos; lra. }
  pose proof (near_abs _ _ _ Q). destruct (mul_val x y X Y ltac:(lra)) as [F V]. split; [exact F|]. rewrite V. now apply rnd_app.
Qed.
Lemma app_div x y a b ea eb : app x a ea -> app y b eb -> eb < Rabs b -> let e := (ea * Rabs b + eb * Rabs a) / (Rabs b * (Rabs b - eb)) in Rabs (a / b) + e <= big ->
  app (x / y) (a / b) (e + (u * (Rabs (a / b) + e) + tiny)).
Proof.
  intros [X A] [Y B] L e H. pose proof (Rabs_pos (val y - b)) as P0. assert (EB : 0 <= eb) by lra. assert (BP : 0 < Rabs b) by lra. assert (B0 : b <> 0) by (intros ->; rewrite Rabs_R0 in BP; lra).
  assert (YL : Rabs b - eb <= Rabs (val y)). { replace b with (val y - (val y - b)) at 1 by ring. eapply Rle_trans; [apply Rplus_le_compat_r, Rabs_triang|]. rewrite Rabs_Ropp. lra. }
  assert (Y0 : val y <> 0) by (intros E; rewrite E, Rabs_R0 in YL; lra).
  assert (Q : Rabs (val x / val y - a / b) <= e).
  { replace (val x / val y - a / b) with (((val x - a) * b - (val y - b) * a) / (b * val y)) by (field; lra).
    unfold Rdiv, e. rewrite Rabs_mult. rewrite Rabs_inv, Rabs_mult. apply Rmult_le_compat; [apply Rabs_pos|left; apply Rinv_0_lt_compat; nra| |].
    - unfold Rminus at 1. eapply Rle_trans; [apply Rabs_triang|]. rewrite Rabs_Ropp, !Rabs_mult. pose proof (Rabs_pos a). pose proof (Rabs_pos (val x - a)). nra.
    - apply Rinv_le_contravar; nra. }
  pose proof (near_abs _ _ _ Q). destruct (div_val x y X Y0 ltac:(lra)) as [F V]. split; [exact F|]. rewrite V. now apply rnd_app.
Qed.

Lemma tiny_le : tiny <= / 10 ^ 30.
Proof.
  unfold tiny. apply Rle_trans with (bpow radix2 (-100)); [apply bpow_le; lia|]. simpl bpow. lra.
Qed.
Lemma small_le : small <= / 10 ^ 30.
Proof. unfold small. apply Rle_trans with (bpow radix2 (-100)); [apply bpow_le; lia|]. simpl bpow. lra. Qed.
Lemma big_ge : 10 ^ 30 <= big.
Proof. unfold big. apply Rle_trans with (bpow radix2 100); [simpl bpow; lra|]. apply bpow_le. lia. Qed.

(** ** A finite result is the rounded one *)
Lemma add_fin x y : fin x -> fin y -> fin (x + y) -> val (x + y) = rnd (val x + val y).
Proof.
  intros X Y H. unfold fin, val in *. rewrite add_equiv in *. pose proof (Bplus_correct 53 1024 eq_refl eq_refl mode_NE (Prim2B x) (Prim2B y) X Y) as C.
  match type of C with if ?b then _ else _ => destruct b end; [exact (proj1 C)|]. exfalso. destruct C as [C _]. revert H C.
  match goal with |- BinarySingleNaN.is_finite ?a = true -> B2SF ?b = _ -> _ => change b with a; destruct a; cbn; destruct (Bsign (Prim2B x)); discriminate end.
Qed.
Lemma mul_fin x y : fin x -> fin y -> fin (x * y) -> val (x * y) = rnd (val x * val y).
Proof.
  intros X Y H. unfold fin, val in *. rewrite mul_equiv in *. pose proof (Bmult_correct 53 1024 eq_refl eq_refl mode_NE (Prim2B x) (Prim2B y)) as C.
  match type of C with if ?b then _ else _ => destruct b end; [exact (proj1 C)|]. exfalso. revert H C. 
  match goal with |- BinarySingleNaN.is_finite ?a = true -> B2SF ?b = _ -> _ => change b with a; destruct a; cbn; destruct (xorb (Bsign (Prim2B x)) (Bsign (Prim2B y))); discriminate end.
Qed.
Lemma add_nonneg x y : fin x -> fin y -> fin (x + y) -> 0 <= val x -> 0 <= val y -> val x <= val (x + y) /\ val y <= val (x + y).
Proof. intros X Y H A B. rewrite (add_fin x y X Y H). pose proof (rnd_le (val x) (val x + val y) ltac:(lra)). pose proof (rnd_le (val y) (val x + val y) ltac:(lra)). rewrite !rnd_val in *. lra. Qed.
Lemma mul_nonneg x y : fin x -> fin y -> fin (x * y) -> 0 <= val x -> 0 <= val y -> 0 <= val (x * y).
Proof. intros X Y H A B. rewrite (mul_fin x y X Y H). apply rnd_ge_0. now apply Rmult_le_pos. Qed.
