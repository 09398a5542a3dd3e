(** * Arithmetic interface

    The C++ code computes with [double].  The model is written once over the class [Num]
    of operations that the code applies to doubles; it is instantiated with Coq's reals
    (exact arithmetic, file NumR.v) and with IEEE binary64 (file NumF.v).  Structural
    theorems are proved for every instance. *)
From Coq Require Import ZArith List Bool.
Import ListNotations.

(** ** Decimal literals, written as in the C++ source

    [Dec m e] is m * 10^e.  The number notation below lets the model write [lit 0.95] or
    [lit 1e-3] exactly where the source writes 0.95 or 1e-3. *)
Inductive dec := Dec (m e : Z).

Definition dec_of_number (n : Number.number) : option dec :=
  match n with
  | Number.Decimal (Decimal.Decimal i f) =>
      let e := (- Z.of_nat (Decimal.nb_digits f))%Z in
      Some (Dec (Z.of_int (Decimal.app_int i f)) e)
  | Number.Decimal (Decimal.DecimalExp i f x) =>
      let e := (Z.of_int x - Z.of_nat (Decimal.nb_digits f))%Z in
      Some (Dec (Z.of_int (Decimal.app_int i f)) e)
  | Number.Hexadecimal _ => None
  end.

Definition number_of_dec (d : dec) : option Number.number :=
  match d with
  | Dec m e =>
      Some (Number.Decimal
              (match e with
               | Z0 => Decimal.Decimal (Z.to_int m) Decimal.Nil
               | _ => Decimal.DecimalExp (Z.to_int m) Decimal.Nil (Z.to_int e)
               end))
  end.

Declare Scope dec_scope.
Delimit Scope dec_scope with dec.
Bind Scope dec_scope with dec.
Number Notation dec dec_of_number number_of_dec : dec_scope.

Definition dec_mant (d : dec) : Z := match d with Dec m _ => m end.
Definition dec_exp (d : dec) : Z := match d with Dec _ e => e end.
Definition dec_opp (d : dec) : dec := match d with Dec m e => Dec (- m) e end.

(** ** The operations of [double] used by the code *)
Class Num (F : Type) := {
  lit   : dec -> F;            (* decimal literal, rounded as the compiler does *)
  ofZ   : Z -> F;              (* int -> double *)
  fadd  : F -> F -> F;
  fsub  : F -> F -> F;
  fmul  : F -> F -> F;
  fdiv  : F -> F -> F;
  fneg  : F -> F;
  fabs  : F -> F;
  fsqrt : F -> F;
  fexp  : F -> F;
  flog  : F -> F;
  flog1p : F -> F;
  flog10 : F -> F;
  fpow  : F -> F -> F;         (* std::pow(double,double) *)
  ffloor : F -> F;
  fto_int : F -> option Z;     (* conversion to int; None = the value is not representable: UB *)
  flround : F -> option Z;     (* std::lround; None = not representable *)
  fltb  : F -> F -> bool;
  fleb  : F -> F -> bool;
  feqb  : F -> F -> bool
}.

Arguments lit {F Num} d%dec.

Declare Scope num_scope.
Delimit Scope num_scope with num.
Infix "+" := fadd : num_scope.
Infix "-" := fsub : num_scope.
Infix "*" := fmul : num_scope.
Infix "/" := fdiv : num_scope.
Notation "- x" := (fneg x) : num_scope.
Notation "x <? y" := (fltb x y) : num_scope.
Notation "x <=? y" := (fleb x y) : num_scope.
Notation "x >? y" := (fltb y x) (only parsing, at level 70) : num_scope.
Notation "x >=? y" := (fleb y x) (only parsing, at level 70) : num_scope.
Notation "x =? y" := (feqb x y) : num_scope.

Section Derived.
  Context {F : Type} {N : Num F}.
  Local Open Scope num_scope.

  (** std::max(a,b) returns a unless a<b; std::min(a,b) returns a unless b<a. *)
  Definition fmax (a b : F) : F := if a <? b then b else a.
  Definition fmin (a b : F) : F := if b <? a then b else a.
End Derived.

(** ** Undefined behaviour is a distinct outcome *)
Inductive ub :=
| OutOfBounds        (* array access outside its bounds *)
| Uninitialised      (* use of an indeterminate value *)
| NullDeref          (* dereference of a null pointer *)
| BadCast            (* double -> int conversion of an unrepresentable value *)
| IterInvalidated    (* use of an invalidated iterator *)
| DanglingPointer    (* access to freed storage *)
| SignedOverflow.    (* int overflow *)

Inductive outcome (A : Type) :=
| Ok (a : A)
| UB (why : ub).
Arguments Ok {A} a.
Arguments UB {A} why.

Definition bind {A B} (x : outcome A) (f : A -> outcome B) : outcome B :=
  match x with Ok a => f a | UB w => UB w end.

Notation "x <- e ;; f" := (bind e (fun x => f))
  (at level 61, e at next level, right associativity).

Definition omap {A B} (f : A -> B) (x : outcome A) : outcome B :=
  match x with Ok a => Ok (f a) | UB w => UB w end.

Definition cast {A} (o : option A) : outcome A :=
  match o with Some a => Ok a | None => UB BadCast end.

(** checked array access: [i] is the C++ index, possibly negative *)
Definition aget {A} (l : list A) (i : Z) : outcome A :=
  if (i <? 0)%Z then UB OutOfBounds
  else match nth_error l (Z.to_nat i) with
       | Some a => Ok a
       | None => UB OutOfBounds
       end.

(** for(auto x : l) acc = f(acc, x), stopping at the first UB *)
Fixpoint ofold {A B} (f : B -> A -> outcome B) (l : list A) (b : B) : outcome B :=
  match l with
  | [] => Ok b
  | x :: l' => b' <- f b x ;; ofold f l' b'
  end.

Fixpoint omapM {A B} (f : A -> outcome B) (l : list A) : outcome (list B) :=
  match l with
  | [] => Ok []
  | x :: l' => y <- f x ;; ys <- omapM f l' ;; Ok (y :: ys)
  end.

Lemma bind_ok {A B} (x : outcome A) (f : A -> outcome B) b :
  bind x f = Ok b -> exists a, x = Ok a /\ f a = Ok b.
Proof. destruct x; simpl; intros H; [eauto | discriminate]. Qed.

Lemma ofold_ok {A B} (f : B -> A -> outcome B) (g : B -> A -> B) l :
  (forall b x, In x l -> f b x = Ok (g b x)) ->
  forall b, ofold f l b = Ok (fold_left g l b).
Proof.
  induction l as [|x l IH]; intros H b; simpl; [reflexivity|].
  rewrite (H b x (or_introl eq_refl)). simpl. apply IH. intros; apply H; now right.
Qed.

Lemma ofold_ext {A B} (f g : B -> A -> outcome B) l :
  (forall b x, In x l -> f b x = g b x) -> forall b, ofold f l b = ofold g l b.
Proof.
  induction l as [|x l IH]; intros H b; simpl; [reflexivity|].
  rewrite (H b x (or_introl eq_refl)).
  destruct (g b x); simpl; [|reflexivity]. apply IH. intros; apply H; now right.
Qed.

Lemma ofold_app {A B} (f : B -> A -> outcome B) l1 l2 b :
  ofold f (l1 ++ l2) b = bind (ofold f l1 b) (ofold f l2).
Proof.
  revert b; induction l1 as [|x l1 IH]; intros b; simpl; [reflexivity|].
  destruct (f b x); simpl; [apply IH | reflexivity].
Qed.

Lemma aget_ok {A} (l : list A) (i : Z) a :
  aget l i = Ok a <-> (0 <= i)%Z /\ nth_error l (Z.to_nat i) = Some a.
Proof.
  unfold aget. destruct (Z.ltb_spec i 0) as [H|H].
  - split; [discriminate|]. intros [H' _]. exfalso. apply (Z.lt_irrefl 0).
    eapply Z.le_lt_trans; eauto.
  - destruct (nth_error l (Z.to_nat i)) eqn:E.
    + split.
      * intros H1; inversion H1; subst. auto.
      * intros [_ H1]. now inversion H1.
    + split; [discriminate | intros [_ H1]; discriminate].
Qed.

Lemma aget_in_bounds {A} (l : list A) (i : Z) :
  (exists a, aget l i = Ok a) <-> (0 <= i < Z.of_nat (length l))%Z.
Proof.
  split.
  - intros [a H]. apply aget_ok in H. destruct H as [H0 H].
    assert (nth_error l (Z.to_nat i) <> None) as H1 by congruence.
    apply nth_error_Some in H1.
    split; [assumption|]. apply Z2Nat.id in H0.
    rewrite <- H0. now apply Nat2Z.inj_lt.
  - intros [H0 H1]. destruct (nth_error l (Z.to_nat i)) eqn:E.
    + exists a. apply aget_ok. auto.
    + apply nth_error_None in E. exfalso.
      apply Nat2Z.inj_le in E. rewrite Z2Nat.id in E by assumption.
      apply (Z.lt_irrefl i). eapply Z.lt_le_trans; eauto.
Qed.

Lemma aget_UB {A} (l : list A) (i : Z) :
  ~ (0 <= i < Z.of_nat (length l))%Z -> aget l i = UB OutOfBounds.
Proof.
  intros H. destruct (aget l i) eqn:E.
  - exfalso. apply H. apply aget_in_bounds. eauto.
  - unfold aget in E. destruct (i <? 0)%Z; [congruence|].
    destruct (nth_error l (Z.to_nat i)); congruence.
Qed.
