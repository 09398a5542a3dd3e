(** * Reaction formulas: include/catima/reactions.h, src/reactions.cpp (without NUREX)

    nonreaction_rate(Projectile&, ...) uses the table cache and is in Catima.v. *)
From Coq Require Import ZArith List Bool.
From Verif Require Import Num Structures Srim Integrator.
Import ListNotations.

Section Reactions.
  Context {F : Type} {N : Num F}.
  Local Open Scope num_scope.

  (** reactions.h:32-43 *)
  Definition reaction_rate (sigma t : F) : F := lit 1.0 - fexp (- sigma * t * lit 0.0001).
  Definition nonreaction_rate_st (sigma t : F) : F := fexp (- sigma * t * lit 0.0001).
  (** reactions.h:45-50 *)
  Definition reaction_rate_f (f : F -> outcome F) (t : F) : outcome F :=
    i <- integrate f (lit 0) t ;; Ok (lit 1.0 - fexp (- i * lit 0.0001)).

  (** reactions.h:61-63 *)
  Definition Ecm_from_T (T Ap At : F) : F := T * Ap * At / (Ap + At).

  (** reactions.cpp:59-69 *)
  Definition production_rate (cs rcs_projectile rcs_product : F) (target : Material F) : F :=
    let t := number_density_cm2 target in
    if fabs (rcs_product - rcs_projectile) <? lit 5.0
    then lit 0.0001 * cs * t * fexp (lit (-0.0001) * rcs_product * t)
    else cs * (fexp (lit (-0.0001) * rcs_projectile * t) - fexp (lit (-0.0001) * rcs_product * t))
         / (rcs_product - rcs_projectile).

  (** int subtraction *)
  Definition isub (a b : Z) : outcome Z :=
    let r := (a - b)%Z in
    if ((-2147483648 <=? r) && (r <=? 2147483647))%Z then Ok r else UB SignedOverflow.
  Lemma isub_ok a b : (-2147483648 <= a - b <= 2147483647)%Z -> isub a b = Ok (a - b)%Z.
  Proof. intros [H1 H2]. unfold isub. apply Z.leb_le in H1. apply Z.leb_le in H2. now rewrite H1, H2. Qed.

  (** reactions.cpp:72-95; int arithmetic on Ap, Zp, At, Zt *)
  Definition SigmaR_Kox (Ap Zp : Z) (E : F) (At Zt : Z) : outcome F :=
    let rc := lit 1.3 in
    let r0 := lit 1.1 in
    let a := lit 1.85 in
    let c1 := lit 2 - (lit 10.0 / (lit 1.5 * lit 1.5 * lit 1.5 * lit 1.5 * lit 1.5)) in
    let Ap13 := fpow (ofZ Ap) (lit 1.0 / lit 3.0) in
    let At13 := fpow (ofZ At) (lit 1.0 / lit 3.0) in
    zt2 <- imul 2 Zt ;;
    n <- isub At zt2 ;;
    apat <- imul Ap At ;;
    zpzt <- imul Zp Zt ;;
    let D := lit 5.0 * ofZ n * ofZ Zp / ofZ apat in
    let Bc := ofZ zpzt / (rc * (Ap13 + At13)) in
    let logE := flog10 E in
    let c :=
      if logE <? lit 1.5 then c1 * fpow (logE / lit 1.5) (lit 3)
      else (lit (-10.0) / fpow logE (lit 5)) + lit 2 in
    let Rs := r0 * ((a * Ap13 * At13) / (Ap13 + At13) - c) + D in
    let Rv := r0 * (Ap13 + At13) in
    let Ri := Rv + Rs in
    let Ecm := Ecm_from_T E (ofZ Ap) (ofZ At) in
    Ok (lit 10.0 * PI_ * Ri * Ri * (lit 1 - (Bc / Ecm))).
End Reactions.
