(** * The checks of the unit tests, as they are written

    tests/testutils.h:7-45: [approx] compares within an absolute tolerance, which [R] sets to a
    multiple of the expected value.  The checks are evaluated in double precision by the model
    with the library functions of [LibmZ]. *)
From Coq Require Import ZArith List Bool Floats.
From Verif Require Import Num NumF LibmZ.
Import ListNotations.
Local Open Scope num_scope.

#[export] Instance Num_test : Num float := NumF z_libm.

(** lhs == approx(m, eps) *)
Definition near (v m eps : float) : bool := PrimFloat.ltb (PrimFloat.abs (v - m)) eps.
(** lhs == approx(m).R(r) *)
Definition near_R (v m r : float) : bool := near v m (r * m).
(** lhs == approx(m): the default tolerance is 1 *)
Definition near_1 (v m : float) : bool := near v m (lit 1.0).
(** a check of a value the program computes: undefined behaviour fails it *)
Definition on {A} (o : outcome A) (check : A -> bool) : bool :=
  match o with Ok v => check v | UB _ => false end.
Definition same (v m : float) : bool := PrimFloat.eqb v m.
(** all checks of a test case hold *)
Definition passes (l : list bool) : Prop := Forall (fun b => b = true) l.

Lemma passes_intro l : forallb (fun b => b) l = true -> passes l.
Proof. intros H. apply Forall_forall. intros b I. rewrite forallb_forall in H. now apply H. Qed.
