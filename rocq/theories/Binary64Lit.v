(** * Every decimal literal of the sources in binary64 is the correctly rounded decimal number *)
From Flocq Require Import Core BinarySingleNaN PrimFloat.
From Coq Require Import ZArith Reals Floats SpecFloat Bool Lia Lra.
From Verif Require Import Binary64 Binary64Num Num NumR NumF.
Local Open Scope R_scope.

Lemma F_of_Z_rnd z : Rabs (IZR z) <= big -> fin (F_of_Z z) /\ val (F_of_Z z) = rnd (IZR z).
Proof.
  intros H. assert (E : F_of_Z z = B2Prim (BinarySingleNaN.binary_normalize 53 1024 eq_refl eq_refl mode_NE z 0 false)).
  { unfold F_of_Z, B2Prim. f_equal. symmetry. exact (eq_sym (binary_normalize_equiv z 0 false)). }
  unfold fin, val. rewrite E, Prim2B_B2Prim.
  pose proof (binary_normalize_correct 53 1024 eq_refl eq_refl mode_NE z 0 false) as C. cbv zeta in C.
  replace (F2R {| Fnum := z; Fexp := 0 |}) with (IZR z) in C by (unfold F2R; cbn [Fnum Fexp bpow]; ring).
  change (round radix2 (SpecFloat.fexp 53 1024) (round_mode mode_NE) (IZR z)) with (rnd (IZR z)) in C.
  rewrite (rnd_small _ H) in C. destruct C as (A & B & _). split; [exact B|exact A].
Qed.

Lemma SFdiv_val sx a q : let r := IZR (cond_Zopp sx (Zpos a)) / IZR (Zpos q) in Rabs r <= big ->
  let f := SF2Prim (SFdiv 53 1024 (S754_finite sx a 0) (S754_finite false q 0)) in fin f /\ val f = rnd r.
Proof.
  intros r H f. pose proof (Bdiv_correct_aux 53 1024 eq_refl eq_refl mode_NE sx a 0 false q 0) as C. cbv zeta in C.
  replace (F2R {| Fnum := cond_Zopp sx (Zpos a); Fexp := 0 |} / F2R {| Fnum := cond_Zopp false (Zpos q); Fexp := 0 |}) with r in C by (unfold F2R; cbn [Fnum Fexp bpow cond_Zopp]; rewrite !Rmult_1_r; reflexivity).
  change (round radix2 (SpecFloat.fexp 53 1024) (round_mode mode_NE) r) with (rnd r) in C. rewrite (rnd_small _ H) in C.
  set (z := let '(mz, ez, lz) := SFdiv_core_binary 53 1024 (Zpos a) 0 (Zpos q) 0 in BinarySingleNaN.binary_round_aux 53 1024 mode_NE (xorb sx false) mz ez lz) in *.
  assert (E : SFdiv 53 1024 (S754_finite sx a 0) (S754_finite false q 0) = z).
  { unfold z, SFdiv. destruct (SFdiv_core_binary _ _ _ _ _ _) as [[mz ez] lz]. apply binary_round_aux_equiv. }
  clearbody z. destruct C as (V & A & B & _).
  assert (P : f = B2Prim (SF2B z V)) by (unfold f, B2Prim; rewrite E, B2SF_SF2B; reflexivity).
  unfold fin, val. rewrite P, Prim2B_B2Prim, B2R_SF2B, is_finite_SF2B. split; assumption.
Qed.

Theorem F_lit_val d : Rabs (Rlit d) <= big -> fin (F_lit d) /\ val (F_lit d) = rnd (Rlit d).
Proof.
  destruct d as [m e]. unfold Rlit, F_lit. destruct e as [|p|p]; try apply F_of_Z_rnd.
  change (10 ^ Zpos p)%Z with (Z.pow (Zpos 10) (Zpos p)). rewrite <- Pos2Z.inj_pow. intros H. destruct m as [|a|a].
  - split; [apply fin_SF; vm_compute; exact I|]. unfold Rdiv. rewrite Rmult_0_l, rnd_0, val_SF. vm_compute Prim2SF. reflexivity.
  - exact (SFdiv_val false a (10 ^ p) H).
  - exact (SFdiv_val true a (10 ^ p) H).
Qed.
