(** * IEEE binary64 as an instance of [Num]

    Round-to-nearest-even arithmetic by Coq's primitive floats.  The functions of libm are a
    parameter: the C++ standard does not fix their last bits.  No fused multiply-add and no
    extended precision is assumed (x86-64 SSE2 code generation). *)
From Coq Require Import ZArith List Bool Floats Uint63 SpecFloat.
From Verif Require Import Num NumR.

Record Libm := {
  lm_exp : float -> float;
  lm_log : float -> float;
  lm_log1p : float -> float;
  lm_log10 : float -> float;
  lm_pow : float -> float -> float
}.

(** nearest double to z * 2^e for an integer z *)
Definition F_of_Z (z : Z) : float := SF2Prim (binary_normalize 53 1024 z 0 false).

(** Decimal literal, correctly rounded: quotient / product of exact integers rounded once. *)
Definition F_lit (d : dec) : float :=
  match d with
  | Dec m e =>
      match e with
      | Zneg p =>
          let q := (10 ^ p)%positive in
          match m with
          | Z0 => 0%float
          | Zpos a => SF2Prim (SFdiv 53 1024 (S754_finite false a 0) (S754_finite false q 0))
          | Zneg a => SF2Prim (SFdiv 53 1024 (S754_finite true a 0) (S754_finite false q 0))
          end
      | _ => F_of_Z (m * 10 ^ e)
      end
  end.

Definition F_floor_Z (x : float) : option Z :=
  match Prim2SF x with
  | S754_zero _ => Some 0%Z
  | S754_finite s m e =>
      let z := if s then Zneg m else Zpos m in
      Some (if (e <? 0)%Z then Z.div z (2 ^ (- e)) else (z * 2 ^ e)%Z)
  | _ => None
  end.

(** floor is the identity on -0, NaN and infinities *)
Definition F_floor (x : float) : float :=
  match Prim2SF x with
  | S754_finite s m e => match F_floor_Z x with Some z => F_of_Z z | None => x end
  | _ => x
  end.

Definition F_trunc_Z (x : float) : option Z :=
  match Prim2SF x with
  | S754_zero _ => Some 0%Z
  | S754_finite s m e =>
      let a := if (e <? 0)%Z then Z.div (Zpos m) (2 ^ (- e)) else (Zpos m * 2 ^ e)%Z in
      Some (if s then (- a)%Z else a)
  | _ => None
  end.

Definition F_to_int (x : float) : option Z :=
  match F_trunc_Z x with Some z => int_range z | None => None end.

(** round half away from zero *)
Definition F_lround (x : float) : option Z :=
  match Prim2SF x with
  | S754_zero _ => Some 0%Z
  | S754_finite s m e =>
      let a := if (e <? 0)%Z then Z.div (2 * Zpos m + 2 ^ (- e)) (2 * 2 ^ (- e))
               else (Zpos m * 2 ^ e)%Z in
      int_range (if s then (- a)%Z else a)
  | _ => None
  end.

#[global] Instance NumF (lm : Libm) : Num float := {
  lit := F_lit;
  ofZ := F_of_Z;
  fadd := PrimFloat.add; fsub := PrimFloat.sub; fmul := PrimFloat.mul; fdiv := PrimFloat.div;
  fneg := PrimFloat.opp; fabs := PrimFloat.abs; fsqrt := PrimFloat.sqrt;
  fexp := lm_exp lm; flog := lm_log lm; flog1p := lm_log1p lm; flog10 := lm_log10 lm;
  fpow := lm_pow lm;
  ffloor := F_floor;
  fto_int := F_to_int;
  flround := F_lround;
  fltb := PrimFloat.ltb; fleb := PrimFloat.leb; feqb := PrimFloat.eqb
}.
