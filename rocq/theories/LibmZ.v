(** * A libm that computes: exp, log, log1p, log10 and pow by integer arithmetic

    Fixed-point numbers in units of 2^-120 (logarithms) and 2^-66 (exp), rounded once to binary64.
    Not part of the library: an instance of [Libm] with which the model can be run. *)
From Coq Require Import ZArith List Bool Floats SpecFloat.
From Verif Require Import Num NumF.
Import ListNotations.
Local Open Scope Z_scope.

(** the double nearest to n * 2^e *)
Definition out (n e : Z) : float := SF2Prim (binary_normalize 53 1024 n e false).
(** n * 2^e rounded down *)
Definition scaled (n e : Z) : Z := Z.shiftl n e.

(** c0 + r (c1 + r (c2 + ..)) with r in units of 2^-p *)
Fixpoint horner (p : Z) (cs : list Z) (r : Z) : Z :=
  match cs with [] => 0 | c :: cs' => c + Z.shiftr (horner p cs' r * r) p end.

(** 1/1, 1/3, 1/5, ... and 1/0!, 1/1!, 1/2!, ... *)
Definition odd_coeffs : list Z := Eval vm_compute in map (fun i => 2 ^ 120 / (2 * Z.of_nat i + 1)) (seq 0 28).
Definition exp_coeffs : list Z := Eval vm_compute in
  (fix go n k f := match n with O => [] | S n' => (2 ^ 66 / f) :: go n' (k + 1) (f * k) end) 20%nat 1 1.

(** log ((b+a)/(b-a)) = 2 atanh (a/b), |a/b| <= 1/5, in units of 2^-120 *)
Definition two_atanh (a b : Z) : Z :=
  let y := Z.shiftl a 120 / b in 2 * Z.shiftr (y * horner 120 odd_coeffs (Z.shiftr (y * y) 120)) 120.
Definition LN2 : Z := Eval vm_compute in two_atanh 1 7 + two_atanh 1 5 .   (* 4/3 * 3/2 *)
(** log (m * 2^e): m is scaled to [2/3, 4/3] of a power of two *)
Definition log_fixed (m : positive) (e : Z) : Z :=
  let d := Z.log2 (Zpos m) in
  let d := if 3 * Zpos m <=? 4 * 2 ^ d then d else d + 1 in
  two_atanh (Zpos m - 2 ^ d) (Zpos m + 2 ^ d) + (e + d) * LN2.
Definition LN10 : Z := Eval vm_compute in log_fixed 10 0.
(** exp of x units of 2^-80 is n * 2^(k-66) *)
Definition LN2_80 : Z := Eval vm_compute in LN2 / 2 ^ 40.
Definition exp_fixed (x : Z) : Z * Z :=
  let k := x / LN2_80 in (horner 66 exp_coeffs (Z.shiftr (x - k * LN2_80) 14), k).

Definition signed (s : bool) (m : positive) : Z := if s then Zneg m else Zpos m.
Definition z_exp (x : float) : float :=
  match Prim2SF x with
  | S754_zero _ => one
  | S754_infinity false => infinity
  | S754_infinity true => zero
  | S754_nan => nan
  | S754_finite s m e =>
      if -42 <? e then (if s then zero else infinity)          (* |x| >= 2^10 *)
      else match exp_fixed (scaled (signed s m) (e + 80)) with (n, k) => out n (k - 66) end
  end.
Definition z_log (x : float) : float :=
  match Prim2SF x with
  | S754_zero _ => neg_infinity
  | S754_infinity false => infinity
  | S754_infinity true | S754_nan => nan
  | S754_finite false m e => out (log_fixed m e) (-120)
  | S754_finite true _ _ => nan
  end.
Definition z_log10 (x : float) : float :=
  match Prim2SF x with
  | S754_finite false m e => out (log_fixed m e * 2 ^ 120 / LN10) (-120)
  | _ => z_log x
  end.
(** log (1 + x): x itself below 2^-60 *)
Definition z_log1p (x : float) : float :=
  match Prim2SF x with
  | S754_finite s m e =>
      if PrimFloat.ltb (abs x) 0x1p-60%float then x
      else match (scaled (signed s m) (e + 120) + 2 ^ 120)%Z with Zpos q => out (log_fixed q (-120)) (-120) | Z0 => neg_infinity | Zneg _ => nan end
  | S754_zero _ => x
  | _ => z_log x
  end.
(** x^y for x > 0; 0^y = 0 for y > 0; the remaining cases do not occur *)
Definition z_pow (x y : float) : float :=
  match Prim2SF x, Prim2SF y with
  | _, S754_zero _ => one
  | S754_zero _, S754_finite false _ _ => zero
  | S754_finite false m e, S754_finite s my ey =>
      let l := scaled (log_fixed m e * signed s my) (ey - 40) in
      if Z.abs l <? 2 ^ 90 then match exp_fixed l with (n, k) => out n (k - 66) end
      else if l <? 0 then zero else infinity
  | _, _ => nan
  end.
Definition z_libm : Libm := Build_Libm z_exp z_log z_log1p z_log10 z_pow.
