(** * Low-energy electronic stopping power: src/srim.cpp *)
From Coq Require Import ZArith List Bool.
From Verif Require Import Num Structures DataSrim.
Import ListNotations.

Section Srim.
  Context {F : Type} {N : Num F}.
  Local Open Scope num_scope.

  (** int multiplication *)
  Definition imul (a b : Z) : outcome Z :=
    let r := (a * b)%Z in
    if ((-2147483648 <=? r) && (r <=? 2147483647))%Z then Ok r else UB SignedOverflow.

  (** table[i][j] *)
  Definition tab2 (t : list (list dec)) (i j : Z) : outcome F :=
    r <- aget t i ;; omap lit (aget r j).
  Definition tab1 (t : list dec) (i : Z) : outcome F := omap lit (aget t i).

  (** row index: srim.cpp:14-17, 37-40, 100-103, 139 *)
  Definition srim_row (z : Z) : Z := if (z >? 92)%Z then 91%Z else (z - 1)%Z.

  (** srim.cpp:11-29 p_se (table pse_95) and 34-51 p_se85 (table proton_stopping_coef):
      the two functions differ only in the table *)
  Definition p_se_with (t : list (list dec)) (z : Z) (energy : F) : outcome F :=
    let e := lit 1000 * energy in
    let i := srim_row z in
    let e1 := if e <=? lit 25 then lit 25 else e in
    c0 <- tab2 t i 0 ;; c1 <- tab2 t i 1 ;; c2 <- tab2 t i 2 ;; c3 <- tab2 t i 3 ;;
    c4 <- tab2 t i 4 ;; c5 <- tab2 t i 5 ;; c6 <- tab2 t i 6 ;; c7 <- tab2 t i 7 ;;
    let sl := c0 * fpow e1 c1 + c2 * fpow e1 c3 in
    let sh := c4 / fpow e1 c5 * flog (c6 / e1 + c7 * e1) in
    let sp := sl * sh / (sl + sh) in
    Ok (if e <=? lit 25
        then sp * (if (z >? 6)%Z then fpow (e / lit 25.0) (lit 0.45)
                   else fpow (e / lit 25.0) (lit 0.25))
        else sp).
  Definition p_se (z : Z) (energy : F) : outcome F := p_se_with pse_95 z energy.
  Definition p_se85 (z : Z) (energy : F) : outcome F := p_se_with proton_stopping_coef z energy.

  (** srim.cpp:70-88: helium *)
  Definition srim_he (fp_se : Z -> F -> outcome F) (tz : Z) (energy e0 : F) : outcome F :=
    let e := if e0 <=? lit 1 then lit 1 else e0 in
    let b := flog e in
    let a := lit 0.2865 + b * (lit 0.1266 + b * (lit (-0.001429) + b * (lit 0.02402
               + b * (lit (-0.01135) + b * lit 0.001475)))) in
    let heh := lit 1.0 - fexp (- fmin (lit 30) a) in
    let b := lit 7.6 - fmax (lit 0) b in
    let a := lit 1.0 + (lit 0.007 + lit 0.00005 * ofZ tz) * fexp (- b * b) in
    let heh := heh * (a * a) in
    sp <- fp_se tz energy ;;
    let se := sp * heh * lit 4.0 in
    Ok (if e =? lit 1 then se * fsqrt e else se).

  (** srim.cpp:89-157: heavy ions *)
  Definition srim_hi (fp_se : Z -> F -> outcome F) (pz tz : Z) (energy e : F) : outcome F :=
    let YRmin := lit 0.130 in
    let VRmin := lit 1.0 in
    let pZ13_inv := lit 1.0 / fpow (ofZ pz) (lit 1.0 / lit 3.0) in
    let pZ23_inv := pZ13_inv * pZ13_inv in
    vfermi <- tab1 atima_vfermi (srim_row tz) ;;
    let v := fsqrt (e / lit 25.0) / vfermi in
    let v2 := v * v in
    let vr := if lit 1 <=? v then v * vfermi * (lit 1 + lit 0.2 / v2)
              else lit 3.0 * vfermi / lit 4.0
                   * (lit 1.0 + v2 * (lit 2.0 / lit 3.0 - v2 / lit 15.0)) in
    let yr := fmax YRmin (vr * pZ23_inv) in
    let yr := fmax yr (VRmin * pZ23_inv) in
    let a := lit (-0.803) * fpow yr (lit 0.3) + lit 1.3167 * fpow yr (lit 0.6)
             + lit 0.38157 * yr + lit 0.008983 * yr * yr in
    let q := fmin (lit 1.0) (fmax (lit 0.0) (lit 1.0 - fexp (- fmin a (lit 50.0)))) in
    let pzd := ofZ pz in
    let b := fmin (lit 0.43) (fmax (lit 0.32) (lit 0.12 + lit 0.025 * pzd)) * pZ13_inv in
    let l0 := (lit 0.8 - q * fmin (lit 1.2) (lit 0.6 + pzd / lit 30.0)) * pZ13_inv in
    let m9 := fmax (lit 0.0) (lit 0.9 - lit 0.025 * pzd) in
    let p16 := fmin (lit 16) pzd in
    let l1 :=
      if q <? lit 0.2 then lit 0
      else if q <? m9 then b * (q - lit 0.2) / fabs (m9 - lit 0.2000001)
      else if q <? fmax (lit 0.0) (lit 1.0 - lit 0.025 * p16) then b
      else b * (lit 1.0 - q) / (lit 0.025 * p16) in
    screen <- tab1 atima_lambda_screening (srim_row pz) ;;
    let l := fmax l1 (l0 * screen) in
    let h1 := lit 4.0 * l * vfermi / lit 1.919 in
    let zeta := q + (lit 1 / (lit 2 * (vfermi * vfermi))) * (lit 1 - q) * flog1p (h1 * h1) in
    let a := lit 7.6 - fmax (lit 0.0) (flog e) in
    pz2 <- imul pz pz ;;
    let zeta := zeta * (lit 1 + (lit 1 / ofZ pz2) * (lit 0.18 + lit 0.0015 * ofZ tz)
                                * fexp (- a * a)) in
    let c1 := zeta * pzd in
    if yr <=? fmax YRmin (VRmin * pZ23_inv) then
      let VRmin := fmax VRmin (YRmin / pZ23_inv) in
      let vmin := lit 0.5 * (VRmin + fsqrt (fmax (lit 0.0)
                                (VRmin * VRmin - lit 0.8 * vfermi * vfermi))) in
      let eee := lit 25.0 * vmin * vmin in
      let eval := if ((tz =? 6) || (((tz =? 14) || (tz =? 32)) && (pz <=? 19)))%Z
                  then lit 0.35 else lit 0.5 in
      let h4 := fpow (e / eee) eval in
      sp <- fp_se tz (eee * lit 0.001) ;;
      Ok (sp * c1 * c1 * h4)
    else
      sp <- fp_se tz energy ;;
      Ok (sp * fpow c1 (lit 2.0)).

  (** srim.cpp:59-158 *)
  Definition srim_dedx_e (pz tz : Z) (energy : F) (use_new : bool) : outcome F :=
    let e := energy * lit 1000 in
    let fp_se := if use_new then p_se else p_se85 in
    if (pz =? 1)%Z then fp_se tz energy
    else if (pz =? 2)%Z then srim_he fp_se tz energy e
    else srim_hi fp_se pz tz energy e.
End Srim.
