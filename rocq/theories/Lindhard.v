(** * The Lindhard-Sorensen correction computed from phase shifts: calculations.cpp:171-419, 840-894

    These functions are public (calculations.h) and were used to generate the tables which the rest
    of the library reads; no other library function calls them.  They need the trigonometric
    functions, which the class [Trig] adds to [Num].

    The three loops without a counter (hyperg and the series inside the nucleus) get a number of
    steps [fuel]; [None] means that more steps are needed. *)
From Coq Require Import ZArith List Bool.
From Verif Require Import Num Structures.
Import ListNotations.

Class Trig (F : Type) := {
  fsin : F -> F; fcos : F -> F; fsinh : F -> F; fcosh : F -> F;
  fatan2 : F -> F -> F          (* atan2 (y, x) *)
}.

Definition obind {A B} (x : option A) (k : A -> option B) : option B :=
  match x with Some a => k a | None => None end.
Notation "x <~ e ;; k" := (obind e (fun x => k)) (at level 61, e at next level, right associativity).

(** ** std::complex<double>: (real part, imaginary part).  Products and quotients of finite numbers;
    sqrt as in libstdc++'s generic version. *)
Section Complex.
  Context {F : Type} {N : Num F} {G : Trig F}.
  Local Open Scope num_scope.

  Definition cplx : Type := F * F.
  Definition cadd (a b : cplx) : cplx := (fst a + fst b, snd a + snd b).
  Definition csub (a b : cplx) : cplx := (fst a - fst b, snd a - snd b).
  Definition cmul (a b : cplx) : cplx :=
    (fst a * fst b - snd a * snd b, fst a * snd b + snd a * fst b).
  Definition cdiv (a b : cplx) : cplx :=
    let d := fst b * fst b + snd b * snd b in
    ((fst a * fst b + snd a * snd b) / d, (snd a * fst b - fst a * snd b) / d).
  Definition rmulc (x : F) (a : cplx) : cplx := (x * fst a, x * snd a).      (* double * complex *)
  Definition cdivr (a : cplx) (x : F) : cplx := (fst a / x, snd a / x).      (* complex / double *)
  Definition cabs (a : cplx) : F := fsqrt (fst a * fst a + snd a * snd a).
  Definition carg (a : cplx) : F := fatan2 (snd a) (fst a).
  Definition cexp (a : cplx) : cplx := (fexp (fst a) * fcos (snd a), fexp (fst a) * fsin (snd a)).
  Definition clog (a : cplx) : cplx := (flog (cabs a), carg a).
  Definition csin (a : cplx) : cplx := (fsin (fst a) * fcosh (snd a), fcos (fst a) * fsinh (snd a)).
  Definition csqrt (a : cplx) : cplx :=
    let x := fst a in let y := snd a in
    if x =? lit 0 then
      let t := fsqrt (fabs y / lit 2) in (t, if y <? lit 0 then - t else t)
    else
      let t := fsqrt (lit 2 * (cabs a + fabs x)) in
      let u := t / lit 2 in
      if lit 0 <? x then (u, y / t) else (fabs y / t, if y <? lit 0 then - u else u).

  (** calculations.cpp:840-855; each step computes the next term and adds it *)
  Fixpoint hyperg_loop (fuel : nat) (a b z : cplx) (dm : F) (term sum : cplx) : option cplx :=
    match fuel with
    | O => None
    | S fuel' =>
        let previous := term in
        let dm := dm + lit 1.0 in
        let Cm := (dm - lit 1.0, lit 0.0) in
        let term := cmul (cmul previous (cdiv (cadd a Cm) (cadd b Cm))) (cdivr z dm) in
        let sum := cadd sum term in
        if (lit 1.0e-6 <? cabs term) && (lit 1.0e-6 <? cabs previous)
        then hyperg_loop fuel' a b z dm term sum else Some sum
    end.
  Definition hyperg (fuel : nat) (a b z : cplx) : option cplx :=
    hyperg_loop fuel a b z (lit 0.0) (lit 1.0, lit 0.0) (lit 1.0, lit 0.0).

  (** calculations.cpp:857-894 *)
  Definition lngamma_coeff : list F :=
    [lit 76.18009172947146; lit (-86.50532032941677); lit 24.01409824083091;
     lit (-1.231739572450155); lit 0.1208650973866179e-2; lit (-0.5395239384953e-5)].
  Fixpoint lngamma_sums (cs : list F) (j : Z) (x y num denom : F) : F * F :=
    match cs with
    | [] => (num, denom)
    | c :: cs' =>
        let fj := ofZ j in
        let cterm := c / ((x + fj) * (x + fj) + y * y) in
        lngamma_sums cs' (j + 1) x y (num + cterm) (denom + (x + fj) * cterm)
    end.
  Definition lngamma (z : cplx) : cplx :=
    let (x, y) := if lit 0 <? fst z then (fst z - lit 1.0, snd z) else (- fst z, - snd z) in
    let r := fsqrt ((x + lit 5.5) * (x + lit 5.5) + y * y) in
    let aterm1 := y * flog r in
    let aterm2 := (x + lit 0.5) * fatan2 y (x + lit 5.5) - y in
    let lterm1 := (x + lit 0.5) * flog r in
    let lterm2 := - y * fatan2 y (x + lit 5.5) - (x + lit 5.5) + lit 0.5 * flog (lit 2.0 * PI_) in
    let (num, denom) := lngamma_sums lngamma_coeff 1 x y (lit 0.0) (lit 1.000000000190015) in
    let num := num * - y in
    let aterm3 := fatan2 num denom in
    let lterm3 := lit 0.5 * flog (num * num + denom * denom) in
    let result := (lterm1 + lterm2 + lterm3, aterm1 + aterm2 + aterm3) in
    if fst z <? lit 0 then
      csub (flog PI_, lit 0.0) (cadd result (clog (csin (rmulc PI_ z))))
    else result.
End Complex.
Arguments cplx F : clear implicits.

Section Phases.
  Context {F : Type} {N : Num F} {G : Trig F}.
  Local Open Scope num_scope.

  Definition ls_compton : F := lit 3.05573356675e-3.
  Definition ls_rho (p : Projectile F) : F := fexp (flog (pA p) / lit 3.0) * ls_compton.
  Definition ls_gamma (p : Projectile F) : F := lit 1.0 + pT p / atomic_mass_unit.
  Definition ls_beta2 (p : Projectile F) : F := lit 1.0 - lit 1.0 / (ls_gamma p * ls_gamma p).
  Definition ls_eta (p : Projectile F) : F := pZ p * fine_structure / fsqrt (ls_beta2 p).
  Definition ls_bgR (p : Projectile F) : F := fsqrt (ls_beta2 p) * ls_gamma p * ls_rho p.

  (** calculations.cpp:233-242, 351-360: the series inside the nucleus.  The condition of the first
      copy states the same comparison twice. *)
  Fixpoint inner_loop (fuel : nat) (rho gz z1 absk : F) (an anm1 bnm1 asum bsum nn : F) : option (F * F) :=
    if lit 1e-6 <? fabs (anm1 / asum) then
      match fuel with
      | O => None
      | S fuel' =>
          let bn := ((rho - gz) * an + fine_structure * z1 * anm1 / lit 2.0)
                      / (lit 2.0 * nn + lit 2.0 * absk + lit 1.0) in
          let anp1 := ((gz + rho) * bn - fine_structure * z1 * bnm1 / lit 2.0) / (lit 2.0 * nn + lit 2.0) in
          inner_loop fuel' rho gz z1 absk anp1 an bn (asum + an) (bsum + bn) (nn + lit 1.0)
      end
    else Some (asum, bsum).

  (** calculations.cpp:190-251, 310-371: the phase dk[i] for the angular momentum k *)
  Definition phase (fuel : nat) (p : Projectile F) (k : F) : option F :=
    let rho := ls_rho p in let gamma := ls_gamma p in let eta := ls_eta p in
    let beta_gamma_R := ls_bgR p in
    let l := if lit 0 <? k then k else - k - lit 1.0 in
    let signk := if lit 0 <? k then lit 1 else if k <? lit 0 then lit (-1) else lit 0 in
    let sk := fsqrt (k * k - fine_structure * fine_structure * pZ p * pZ p) in
    let cexir_n := (k, - eta / gamma) in
    let cexir := csqrt (cdiv cexir_n (sk, - eta)) in
    let csketa := (sk + lit 1.0, eta) in
    let cpiske := (lit 0.0, (PI_ * (l - sk) / lit 2.0) - snd (lngamma csketa)) in
    let cedr := cmul cexir (cexp cpiske) in
    let cmsketa := (- sk + lit 1.0, eta) in
    let cexis := csqrt (cdiv cexir_n (- sk, - eta)) in
    let cpimske := (lit 0.0, (PI_ * (l + sk) / lit 2.0) - snd (lngamma cmsketa)) in
    let ceds := cmul cexis (cexp cpimske) in
    let cmbeta_gamma_R := (lit 0, - beta_gamma_R) in
    let c2beta_gamma_R := (lit 0, lit 2.0 * beta_gamma_R) in
    let c2sk_1 := (lit 2.0 * sk + lit 1, lit 0) in
    let cm2sk_1 := (lit (-2.0) * sk + lit 1, lit 0) in
    hr <~ hyperg fuel csketa c2sk_1 c2beta_gamma_R ;;
    hs <~ hyperg fuel cmsketa cm2sk_1 c2beta_gamma_R ;;
    let clambda_r := cmul (cmul cexir (cexp cmbeta_gamma_R)) hr in
    let clambda_s := cmul (cmul cexis (cexp cmbeta_gamma_R)) hs in
    let cGrGs := lngamma cm2sk_1 in
    let GrGs := snd clambda_r / snd clambda_s in
    let GrGs := GrGs * fexp (fst (lngamma csketa) - fst (lngamma cmsketa) - fst (lngamma c2sk_1)
                             + fst cGrGs + lit 2.0 * sk * flog (lit 2.0 * beta_gamma_R)) in
    let GrGs := if fcos (snd cGrGs) <? lit 1.0 then GrGs * lit (-1) else GrGs in
    H <~ (if lit 1.0e-9 <? fabs GrGs then
            let FrGr := fsqrt ((gamma - lit 1) / (gamma + lit 1)) * fst clambda_r / snd clambda_r in
            let FsGs := fsqrt ((gamma - lit 1) / (gamma + lit 1)) * fst clambda_s / snd clambda_s in
            let gz := lit (-1.0) * signk * (rho * gamma + lit 1.5 * pZ p * fine_structure) in
            let z1 := lit (-1.0) * signk * pZ p in
            let b0 := lit 1.0 in
            let a0 := (lit 1.0 + lit 2.0 * fabs k) * b0 / (rho - gz) in
            let a1 := lit 0.5 * (gz + rho) * b0 in
            ab <~ inner_loop fuel rho gz z1 (fabs k) a1 a0 b0 a0 b0 (lit 1.0) ;;
            let figi := if lit 0 <? k then fst ab / snd ab else snd ab / fst ab in
            Some ((FrGr - figi) / (figi - FsGs) * GrGs)
          else Some (lit 0)) ;;
    Some (carg (cadd cedr (rmulc H ceds))).
End Phases.

Section Sums.
  Context {F : Type} {N : Num F} {G : Trig F}.
  Local Open Scope num_scope.

  (** calculations.cpp:183-275: the loop for n, n+1, .. (m passes) over any phase function.
      dk[2] is computed in the first pass and taken from the previous pass's dk[1] afterwards. *)
  Fixpoint lindhard_loop (ph : F -> option F) (eta : F) (m : nat) (n : Z) (sum dmk dkm1 : F) : option F :=
    match m with
    | O => Some sum
    | S m' =>
        let k0 := ofZ n in
        dk0 <~ ph k0 ;;
        dk1 <~ ph (- k0 - lit 1.0) ;;
        dk2 <~ (if (n =? 1)%Z then ph (- k0) else Some dmk) ;;
        let sdm2 := fsin (dk2 - dk1) in
        let term1 := k0 * (k0 + lit 1.0) * sdm2 * sdm2 / (eta * eta * (lit 2.0 * k0 + lit 1.0)) in
        let term1 :=
          if (n >? 1)%Z then
            let sd2 := fsin (dk0 - dkm1) in
            term1 + k0 * (k0 - lit 1.0) * sd2 * sd2 / (eta * eta * (lit 2.0 * k0 - lit 1.0))
          else term1 in
        let sdd := fsin (dk0 - dk2) in
        let term2 := k0 * sdd * sdd / (eta * eta * (lit 4.0 * k0 * k0 - lit 1.0)) in
        let term3 := term1 - lit 1.0 / k0 in
        lindhard_loop ph eta m' (n + 1) (sum + (term2 + term3)) dk1 dk0
    end.

  (** calculations.cpp:171-282 *)
  Definition bethek_lindhard (fuel : nat) (p : Projectile F) : option F :=
    sum <~ (if ls_gamma p <? lit 10.0 / ls_rho p
            then lindhard_loop (phase fuel p) (ls_eta p) (Z.to_nat 4999) 1 (lit 0) (lit 0) (lit 0)
            else Some (- flog (ls_bgR p) - lit 0.2)) ;;
    Some (sum + (lit 0.5 * ls_beta2 p)).

  (** calculations.cpp:296-412: four phases are computed in every pass; from the second pass on the
      one for i = 2 (k = n) is replaced by the previous pass's dk[1] *)
  Fixpoint lindhard_X_loop (ph : F -> option F) (eta : F) (m : nat) (n : Z) (sum dmk dmkp1 dkm1 dkm2 : F)
    : option F :=
    match m with
    | O => Some sum
    | S m' =>
        let k0 := ofZ n in
        dk0 <~ ph k0 ;;
        dk1 <~ ph (- k0 - lit 1.0) ;;
        dk2 <~ ph (if (n =? 1)%Z then - k0 else k0) ;;
        dk3 <~ ph (- k0 - lit 2.0) ;;
        let dk2 := if (n >? 1)%Z then dmk else dk2 in
        let eta2 := eta * eta in
        let sdm2 := fsin (dk0 - dkm2) in
        let strterm1p :=
          if (n >? 2)%Z then
            sdm2 * sdm2 * (k0 - lit 1) * (k0 - lit 2) / ((lit 2.0 * k0 - lit 1.0) * (lit 2.0 * k0 - lit 3.0))
          else lit 0 in
        let sdm2 := fsin (dk2 - dk3) in
        let strterm1n :=
          sdm2 * sdm2 * (- k0 - lit 1) * (- k0 - lit 2)
            / ((lit (-2.0) * k0 - lit 1.0) * (lit (-2.0) * k0 - lit 3.0)) in
        let strterm2 :=
          if (n >? 1)%Z then
            let sd2 := fsin (dk0 - dmkp1) in
            lit 0 + (k0 - lit 1.0) * sd2 * sd2 / ((lit 2.0 * k0 - lit 3.0) * (lit 4.0 * k0 * k0 - lit 1.0))
          else lit 0 in
        let sdd := fsin (dk0 - dk1) in
        let strterm3 :=
          sdd * sdd * (k0 + lit 1.0)
            * ((lit 1 / (lit 4.0 * k0 * k0 - lit 1.0)) + (lit 1 / (lit 4 * (k0 + lit 1.0) * (k0 + lit 1.0) - lit 1.0)))
            / (lit 2.0 * k0 + lit 1.0) in
        let sum := sum + k0 * (strterm1p + strterm1n + (strterm2 * lit 2) + strterm3) / eta2 in
        let sum := sum + - (lit 2.0 / k0) in
        lindhard_X_loop ph eta m' (n + 1) sum dk1 dk2 dk0 dkm1
    end.

  (** calculations.cpp:284-419 *)
  Definition bethek_lindhard_X (fuel : nat) (p : Projectile F) : option F :=
    sum <~ lindhard_X_loop (phase fuel p) (ls_eta p) (Z.to_nat 999) 1 (lit 0) (lit 0) (lit 0) (lit 0) (lit 0) ;;
    L <~ bethek_lindhard fuel p ;;
    let res := lit 2 * L - sum - ls_beta2 p in
    Some (if lit 0 <=? res then res else lit 0.0).
End Sums.
