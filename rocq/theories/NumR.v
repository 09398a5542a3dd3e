(** * Exact real arithmetic as an instance of [Num]

    Division by zero, square root of a negative number, and logarithm of a non-positive
    number have the (arbitrary) values of Coq's library; theorems stated with this instance
    carry hypotheses that exclude them. *)
From Coq Require Import ZArith Reals List Bool Lra Lia.
From Verif Require Import Num.
Local Open Scope R_scope.

Definition Rltb (x y : R) : bool := if Rlt_dec x y then true else false.
Definition Rleb (x y : R) : bool := if Rle_dec x y then true else false.
Definition Reqb (x y : R) : bool := if Req_EM_T x y then true else false.

Definition Rlit (d : dec) : R :=
  match d with
  | Dec m e =>
      match e with
      | Zneg p => IZR m / IZR (10 ^ Zpos p)
      | _ => IZR (m * 10 ^ e)
      end
  end.

(** largest integer not above x *)
Definition Rfloor_Z (x : R) : Z := Int_part x.

(** C++ conversion double -> int truncates toward zero; unrepresentable values are UB *)
Definition Rtrunc_Z (x : R) : Z :=
  if Rle_dec 0 x then Int_part x else (- Int_part (- x))%Z.
Definition int_range (z : Z) : option Z :=
  if ((-2147483648 <=? z) && (z <=? 2147483647))%Z then Some z else None.
Definition Rto_int (x : R) : option Z := int_range (Rtrunc_Z x).
(** std::lround rounds half away from zero *)
Definition Rlround (x : R) : option Z :=
  int_range (if Rle_dec 0 x then Int_part (x + /2) else (- Int_part (- x + /2))%Z).

(** C pow on reals *)
Definition Rpow_c (x y : R) : R :=
  if Rlt_dec 0 x then Rpower x y
  else if Req_EM_T x 0 then (if Req_EM_T y 0 then 1 else 0)
  else if Req_EM_T y (IZR (Int_part y)) then powerRZ x (Int_part y)
  else 0.

#[global] Instance NumR : Num R := {
  lit := Rlit;
  ofZ := IZR;
  fadd := Rplus; fsub := Rminus; fmul := Rmult; fdiv := Rdiv;
  fneg := Ropp; fabs := Rabs; fsqrt := sqrt; fexp := exp; flog := ln;
  flog1p := fun x => ln (1 + x);
  flog10 := fun x => ln x / ln 10;
  fpow := Rpow_c;
  ffloor := fun x => IZR (Rfloor_Z x);
  fto_int := Rto_int;
  flround := Rlround;
  fltb := Rltb; fleb := Rleb; feqb := Reqb
}.

Lemma Rltb_spec x y : reflect (x < y) (Rltb x y).
Proof. unfold Rltb. destruct (Rlt_dec x y); constructor; assumption. Qed.
Lemma Rleb_spec x y : reflect (x <= y) (Rleb x y).
Proof. unfold Rleb. destruct (Rle_dec x y); constructor; assumption. Qed.
Lemma Reqb_spec x y : reflect (x = y) (Reqb x y).
Proof. unfold Reqb. destruct (Req_EM_T x y); constructor; assumption. Qed.

Lemma Rltb_true x y : Rltb x y = true <-> x < y.
Proof. destruct (Rltb_spec x y); split; auto; discriminate. Qed.
Lemma Rltb_false x y : Rltb x y = false <-> y <= x.
Proof. destruct (Rltb_spec x y); split; intros; try discriminate; lra. Qed.
Lemma Rleb_true x y : Rleb x y = true <-> x <= y.
Proof. destruct (Rleb_spec x y); split; auto; discriminate. Qed.
Lemma Rleb_false x y : Rleb x y = false <-> y < x.
Proof. destruct (Rleb_spec x y); split; intros; try discriminate; lra. Qed.
Lemma Reqb_true x y : Reqb x y = true <-> x = y.
Proof. destruct (Reqb_spec x y); split; auto; discriminate. Qed.
Lemma Reqb_false x y : Reqb x y = false <-> x <> y.
Proof. destruct (Reqb_spec x y); split; intros; auto; try discriminate; contradiction. Qed.

(** turn the operations of the class at R into the usual ones *)
Ltac numR :=
  cbn [lit ofZ fadd fsub fmul fdiv fneg fabs fsqrt fexp flog flog1p flog10 fpow ffloor
       fto_int flround fltb fleb feqb NumR] in *.

(** normalise decimal literals: [Rlit 0.95] becomes [95 / 100] *)
Ltac dec_norm :=
  repeat match goal with
  | |- context [Rlit (Dec ?m ?e)] =>
      let t := eval cbv [Rlit Z.pow Z.pow_pos Pos.iter Z.mul Pos.mul Pos.add Pos.succ] in (Rlit (Dec m e)) in
      change (Rlit (Dec m e)) with t
  | H : context [Rlit (Dec ?m ?e)] |- _ =>
      let t := eval cbv [Rlit Z.pow Z.pow_pos Pos.iter Z.mul Pos.mul Pos.add Pos.succ] in (Rlit (Dec m e)) in
      change (Rlit (Dec m e)) with t in H
  end.

(** split on every comparison in the goal *)
Ltac case_cmp :=
  match goal with
  | |- context [Rltb ?x ?y] => destruct (Rltb_spec x y)
  | |- context [Rleb ?x ?y] => destruct (Rleb_spec x y)
  | |- context [Reqb ?x ?y] => destruct (Reqb_spec x y)
  end.

Lemma Rfloor_bound x : IZR (Rfloor_Z x) <= x < IZR (Rfloor_Z x) + 1.
Proof.
  unfold Rfloor_Z. destruct (base_Int_part x) as [H1 H2].
  split; [assumption | lra].
Qed.

Lemma Rfloor_unique x z : IZR z <= x < IZR z + 1 -> Rfloor_Z x = z.
Proof.
  intros [H1 H2]. destruct (Rfloor_bound x) as [H3 H4].
  assert (IZR z < IZR (Rfloor_Z x + 1)) as A by (rewrite plus_IZR; lra).
  assert (IZR (Rfloor_Z x) < IZR (z + 1)) as B by (rewrite plus_IZR; lra).
  apply lt_IZR in A. apply lt_IZR in B. lia.
Qed.

Lemma Rfloor_IZR z : Rfloor_Z (IZR z) = z.
Proof. apply Rfloor_unique. lra. Qed.

Lemma int_range_some z : (-2147483648 <= z <= 2147483647)%Z -> int_range z = Some z.
Proof.
  intros [H1 H2]. unfold int_range.
  apply Z.leb_le in H1. apply Z.leb_le in H2. rewrite H1, H2. reflexivity.
Qed.

Lemma Rto_int_nonneg x : 0 <= x < 2147483648 -> Rto_int x = Some (Rfloor_Z x).
Proof.
  intros [H0 H1]. unfold Rto_int, Rtrunc_Z. destruct (Rle_dec 0 x); [|lra].
  apply int_range_some. fold (Rfloor_Z x).
  destruct (Rfloor_bound x) as [A B].
  assert (IZR (Rfloor_Z x) < IZR 2147483648) as C by lra. apply lt_IZR in C.
  assert (IZR (-1) < IZR (Rfloor_Z x)) as D by (simpl; lra). apply lt_IZR in D. lia.
Qed.

Lemma Rto_int_IZR z : (-2147483648 <= z <= 2147483647)%Z -> Rto_int (IZR z) = Some z.
Proof.
  intros H. unfold Rto_int, Rtrunc_Z.
  destruct (Rle_dec 0 (IZR z)).
  - fold (Rfloor_Z (IZR z)). rewrite Rfloor_IZR. now apply int_range_some.
  - rewrite <- opp_IZR. fold (Rfloor_Z (IZR (-z))). rewrite Rfloor_IZR, Z.opp_involutive.
    now apply int_range_some.
Qed.

Lemma Rpow_pos x y : 0 < x -> Rpow_c x y = Rpower x y.
Proof. intros H. unfold Rpow_c. destruct (Rlt_dec 0 x); [reflexivity | contradiction]. Qed.

Lemma Rpow_pos_gt0 x y : 0 < x -> 0 < Rpow_c x y.
Proof. intros H. rewrite Rpow_pos by assumption. apply exp_pos. Qed.
