(** * Physics formulas: src/calculations.cpp, include/catima/calculations.h

    Loops over the constituents of a material are written as folds over the list of atoms (the
    code indexes atoms[i] for i < ncomponents(), which is in bounds).  bethek_lindhard,
    bethek_lindhard_X, lngamma and hyperg are not called by the library (only by the table
    generator in utils/); they are in Lindhard.v.  assert() is a no-op (Release build). *)
From Coq Require Import ZArith List Bool.
From Verif Require Import Num Structures DataElements EnergyTable Srim
  DataLSa DataLSahi DataLSXa DataLSXahi.
Import ListNotations.

Section Calculations.
  Context {F : Type} {N : Num F}.
  Local Open Scope num_scope.

  (** calculations.h:230-239 *)
  Definition power (x y : F) : F := fexp (flog x * y).
  Definition ipow (x : F) (y : Z) : F :=
    if (y =? 0)%Z then lit 1.0 else if (y =? 1)%Z then x else if (y =? 2)%Z then x * x
    else fpow x (ofZ y).

  (** calculations.cpp:460-471 *)
  Definition gamma_from_T (T : F) : F := lit 1.0 + T / atomic_mass_unit.
  Definition beta_from_T (T : F) : F :=
    let gamma := gamma_from_T T in fsqrt (lit 1.0 - lit 1.0 / (gamma * gamma)).
  Definition p_from_T (T M : F) : F := fsqrt (T * (T + lit 2 * atomic_mass_unit)) * M.
  (** reactions.h:56-58: a second definition of the same function catima::p_from_T(double,double);
      which one a program uses is up to the linker *)
  Definition p_from_T_reactions (T M : F) : F :=
    M * fsqrt (T * T + lit 2 * T * atomic_mass_unit).

  (** calculations.cpp:23-27 *)
  Definition reduced_energy_loss_unit (p : Projectile F) (t : Target F) : F :=
    let zpowers := fpow (pZ p) (lit 0.23) + fpow (ofZ (tZ t)) (lit 0.23) in
    let asum := pA p + tA t in
    lit 32.53 * tA t * lit 1000 * pT p * pA p / (pZ p * ofZ (tZ t) * asum * zpowers).

  (** calculations.cpp:41-62 *)
  Definition dedx_n_t (p : Projectile F) (t : Target F) : F :=
    let zpowers := fpow (pZ p) (lit 0.23) + fpow (ofZ (tZ t)) (lit 0.23) in
    let asum := pA p + tA t in
    let epsilon :=
      lit 32.53 * tA t * lit 1000 * pT p * pA p / (pZ p * ofZ (tZ t) * asum * zpowers) in
    if epsilon <=? lit 0 then lit 0.0
    else
      let sn :=
        if epsilon <=? lit 30
        then flog1p (lit 1.1383 * epsilon)
             / (lit 2 * (epsilon + lit 0.01321 * fpow epsilon (lit 0.21226)
                         + lit 0.19593 * fpow epsilon (lit 0.5)))
        else flog epsilon / (lit 2 * epsilon) in
      lit 100 * lit 8.4621 * pZ p * ofZ (tZ t) * pA p * sn * Avogadro / (asum * zpowers * tA t).

  (** calculations.cpp:30-39 *)
  Definition dedx_n (p : Projectile F) (mat : Material F) : F :=
    fold_left (fun sum t => sum + wfrac mat t * dedx_n_t p t) (m_atoms mat) (lit 0.0).

  (** ** Effective charge, calculations.cpp:638-833 *)

  (** calculations.cpp:673-675 *)
  Definition z_eff_Pierce_Blann (z beta : F) : F :=
    z * (lit 1.0 - fexp (lit (-0.95) * fine_structure_inverted * beta
                         / fpow z (lit 2.0 / lit 3.0))).

  (** calculations.cpp:677-681 *)
  Definition z_eff_Anthony_Landford (pz beta tz : F) : F :=
    let B := lit 1.18 - tz * (lit 7.5e-03 - lit 4.53e-05 * tz) in
    let A := lit 1.16 - tz * (lit 1.91e-03 - lit 1.26e-05 * tz) in
    pz * (lit 1.0 - (A * fexp (- fine_structure_inverted * B * beta
                               / fpow pz (lit 2.0 / lit 3.0)))).

  (** calculations.cpp:683-709 *)
  Definition z_eff_Hubert (pz E tz : F) : F :=
    let lntz := flog tz in
    if E <? lit 2.5 then lit 0.0
    else
      let '(x1, x2, x3, x4) :=
        if tz =? lit 4 then
          (lit 2.045 + lit 2.0 * fexp (lit (-0.04369) * pz), lit 7.0, lit 0.2643, lit 0.4171)
        else if tz =? lit 6 then
          (lit 2.584 + lit 1.91 * fexp (lit (-0.03958) * pz), lit 6.933, lit 0.2433, lit 0.3969)
        else
          (lit 1.164 + lit 0.2319 * fexp (lit (-0.004302) * tz)
             + lit 1.658 * fexp (lit (-0.0517) * pz),
           lit 8.144 + lit 0.09876 * lntz,
           lit 0.314 + lit 0.01072 * lntz,
           lit 0.5218 + lit 0.02521 * lntz) in
      pz * (lit 1 - x1 * fexp (- x2 * fpow E x3 * fpow pz (- x4))).

  (** calculations.cpp:711-747 *)
  Definition z_eff_Winger (pz beta tz : F) : F :=
    let c0 := lit 0.4662 in let c1 := lit 0.5491 in let c2 := lit 0.7028 in
    let c3 := lit 0.1089 in let c4 := lit 0.001644 in let c5 := lit 0.5155 in
    let c6 := lit 0.05633 in let c7 := lit 0.005447 in let c8 := lit 0.8795 in
    let c9 := lit 1.091 in let c10 := lit 0.0008261 in let c11 := lit 2.848 in
    let c12 := lit 0.2442 in let c13 := lit 0.00009293 in
    let tz := if tz =? lit 1 then lit 2.6 else tz in
    let tz := if tz =? lit 2 then lit 2.8 else tz in
    let x := beta / lit 0.012 / fpow pz (lit 0.45) in
    let lnz := flog pz in
    let lnzt := flog tz in
    let a0 := - c0 in
    let a1 := - c1 * fexp (c2 * lnz - c3 * lnz * lnz + c4 * lnz * lnz * lnz
                           - c5 * lnzt + c6 * lnzt * lnzt) in
    let a2 := c7 * fexp (c8 * lnz - c9 * lnzt) in
    let a3 := - c10 * fexp (c11 * lnz - c12 * lnz * lnz * lnz) in
    let a4 := - c13 in
    pz * (lit 1 - fexp (a0 + a1 * x + a2 * x * x + a3 * x * x * x + a4 * x * x * x * x)).

  (** calculations.cpp:749-763, without GLOBAL *)
  Definition z_eff_global (pz E tz : F) : F :=
    if lit 2000 <? E then pz
    else if (E <? lit 30.0) || (pz <? lit 29) then z_eff_Pierce_Blann pz E
    else lit (-1).

  (** calculations.cpp:765-776 *)
  Definition z_eff_Schiwietz (pz beta tz : F) : F :=
    let scaled_velocity := fpow pz (lit (-0.543)) * beta / bohr_velocity in
    let c1 := lit 1 - lit 0.26 * fexp (- tz / lit 11.0)
                       * fexp (- (tz - pz) * (tz - pz) / lit 9) in
    let c2 := lit 1 + lit 0.030 * scaled_velocity * flog tz in
    let x := c1 * fpow (scaled_velocity / c2 / lit 1.54) (lit 1 + (lit 1.83 / pz)) in
    pz * ((lit 8.29 * x) + (x * x * x * x))
      / ((lit 0.06 / x) + lit 4 + (lit 7.4 * x) + (x * x * x * x)).

  (** calculations.cpp:778-833, without GLOBAL *)
  Definition z_eff_atima14 (pz T tz : F) : F := lit 0.0.

  (** calculations.cpp:638-671 *)
  Definition z_effective (p : Projectile F) (t : Target F) (c : Config F) : F :=
    if (c_zeff c =? z_none)%Z then pQ p
    else
      let gamma := lit 1.0 + pT p / atomic_mass_unit in
      let beta := fsqrt (lit 1.0 - lit 1.0 / (gamma * gamma)) in
      let tz := ofZ (tZ t) in
      if (c_zeff c =? z_pierce_blann)%Z then z_eff_Pierce_Blann (pZ p) beta
      else if (c_zeff c =? z_anthony_landorf)%Z then z_eff_Anthony_Landford (pZ p) beta tz
      else if (c_zeff c =? z_hubert)%Z then z_eff_Hubert (pZ p) (pT p) tz
      else if (c_zeff c =? z_winger)%Z then z_eff_Winger (pZ p) beta tz
      else if (c_zeff c =? z_global)%Z then z_eff_global (pZ p) (pT p) tz
      else if (c_zeff c =? z_atima14)%Z then z_eff_atima14 (pZ p) (pT p) tz
      else if (c_zeff c =? z_schiwietz)%Z then z_eff_Schiwietz (pZ p) beta tz
      else lit 0.0.

  (** ** Bethe formula and its corrections *)

  (** calculations.cpp:126-147: Jackson-McCarthy interpolation; the rows are
      (VA[i-1], V2FVA[i-1], VA[i], V2FVA[i]) for i = 1..3, the loop stops at VA[i] >= v1 *)
  Definition barkas_rows : list (F * F * F * F) :=
    [(lit 1, lit 0.33, lit 2, lit 0.30);
     (lit 2, lit 0.30, lit 3, lit 0.26);
     (lit 3, lit 0.26, lit 4, lit 0.23)].
  Fixpoint barkas_search (rows : list (F * F * F * F)) (v1 : F) : F :=
    match rows with
    | [] => lit 0.0
    | (va0, vf0, va1, vf1) :: rows' =>
        if v1 <=? va1 then vf0 + (v1 - va0) * (vf1 - vf0) / (va1 - va0)
        else barkas_search rows' v1
    end.
  Definition bethek_barkas (zp_eff eta zt : F) : F :=
    let v1 := eta / (fine_structure * fsqrt zt) in
    let v2fv :=
      if lit 4 <=? v1 then lit 0.45 / fsqrt v1
      else if (lit 1 <=? v1) && (v1 <? lit 4) then barkas_search barkas_rows v1
      else lit 0.0 in
    lit 1.0 + lit 2.0 * zp_eff * v2fv / (v1 * v1 * fsqrt zt).

  (** calculations.cpp:149-168 *)
  Definition bethek_density_effect (beta : F) (zt : Z) : outcome F :=
    let gamma := lit 1 / fsqrt (lit 1 - beta * beta) in
    let x := flog (beta * gamma) / lit 2.3025851 in
    let zt := if (zt >? 97)%Z then 97%Z else zt in
    let i := (zt - 1)%Z in
    x0 <- tab1 density_effect_x0 i ;;
    if x <? x0 then
      d0 <- tab1 density_effect_del_0 i ;;
      Ok (if lit 0 <? d0 then d0 * fpow (lit 10.0) (lit 2 * (x - x0)) else lit 0)
    else
      c <- tab1 density_effect_c i ;;
      let del := lit 4.6052 * x - c in
      x1 <- tab1 density_effect_x1 i ;;
      if (x0 <=? x) && (x <=? x1) then
        a <- tab1 density_effect_a i ;;
        m <- tab1 density_effect_m i ;;
        Ok (del + a * fpow (x1 - x) m)
      else Ok del.

  (** generated_LS_coeff.h:5-18 *)
  Definition LS_MAX_Z : Z := 110.
  Definition a_rel_increase : F := lit 0.05.
  Definition ls_energy_table : EnergyTable F := et_make 200 (lit 0) (lit 7).

  (** interpolation in row z of a table; both subscripts are unchecked in the code *)
  Definition ls_lookup (tab : list (list dec)) (z : Z) (T : F) : outcome F :=
    row <- aget tab z ;;
    et_interpolate ls_energy_table T (fun i => omap lit (aget row i)).

  (** calculations.cpp:580-596 *)
  Definition precalculated_lindhard (p : Projectile F) : outcome F :=
    z <- cast (fto_int (pZ p)) ;;
    let z := if (z >? LS_MAX_Z)%Z then LS_MAX_Z else z in
    e0 <- aget (et_values ls_energy_table) 0 ;;
    let T := if pT p <? e0 then e0 else pT p in
    let da := (pA p - element_atomic_weight z) / element_atomic_weight z in
    let z := (z - 1)%Z in
    v1 <- ls_lookup ls_coefficients_a z T ;;
    v2 <- ls_lookup ls_coefficients_ahi z T ;;
    let dif := v2 - v1 in
    Ok (v1 + (dif * da / a_rel_increase)).

  (** calculations.cpp:598-614 *)
  Definition precalculated_lindhard_X (p : Projectile F) : outcome F :=
    let T := pT p in
    z <- cast (fto_int (pZ p)) ;;
    let z := if (z >? LS_MAX_Z)%Z then LS_MAX_Z else z in
    e0 <- aget (et_values ls_energy_table) 0 ;;
    if pT p <? e0 then Ok (lit 1.0)
    else
      let da := (pA p - element_atomic_weight z) / element_atomic_weight z in
      let z := (z - 1)%Z in
      v1 <- ls_lookup ls_X_coefficients_a z T ;;
      v2 <- ls_lookup ls_X_coefficients_ahi z T ;;
      let dif := v2 - v1 in
      Ok (v1 + (dif * da / a_rel_increase)).

  (** calculations.cpp:421-436 *)
  Definition pair_production (p : Projectile F) (t : Target F) : F :=
    let tz := ofZ (tZ t) in
    let gamma := lit 1.0 + pT p / atomic_mass_unit in
    let d := lit 1.0 / fsqrt gamma in
    let logd2 := flog (d * d) in
    let l0 := flog (lit 2.0 * gamma) in
    let Zt13 := lit 183.0 * power tz (lit (-1.0) / lit 3.0) in
    let L0screen := (lit 19.0 / lit 9.0)
                    * flog (Zt13 / (lit 1.0 + lit 25.018803808 * Zt13 / gamma)) in
    let L1 := (lit 4178.0 / (lit 81.0 * PI_ * PI_))
              - (lit 21.0 / lit 27.0)
              - (lit 248.0 * l0 / (lit 27.0 * PI_ * PI_))
              + (((lit 28.0 * l0 / (lit 9.0)) - lit 446.0 / lit 27.0) * logd2 / (PI_ * PI_))
              + (lit 14.0 * logd2 * logd2 / (lit 9.0 * PI_ * PI_)) in
    let L1 := L1 * d in
    let s := lit 0.25 * dedx_constant * fine_structure * fine_structure * pZ p * pZ p * tz * tz
             * gamma * (lit 1.0 + (lit 1.0 / tz)) * (L0screen + L1) / tA t in
    if s <? lit 0.0 then lit 0.0 else s.

  (** calculations.cpp:438-444 *)
  Definition bremsstrahlung (p : Projectile F) (t : Target F) : F :=
    let tz := ofZ (tZ t) in
    let gamma := lit 1.0 + pT p / atomic_mass_unit in
    let R := lit 1.18 * (power (pA p) (lit 1.0 / lit 3.0) + power (tA t) (lit 1.0 / lit 3.0)) in
    let Lbs := flog1p (lit 2.0 * gamma * lit 0.1 * hbar * c_light / atomic_mass_unit / R / pA p) in
    let C := dedx_constant * fine_structure * (electron_mass / atomic_mass_unit) in
    lit 16.0 * C * gamma * pZ p * pZ p * pZ p * pZ p * tz * tz * Lbs
      / (tA t * pA p * lit 3.0 * lit 4.0 * PI_).

  (** calculations.cpp:75-123 *)
  Definition bethek_dedx_e_t (p : Projectile F) (t : Target F) (c : Config F) (I : F)
    : outcome F :=
    if pT p =? lit 0 then Ok (lit 0.0)
    else
      let tz := ofZ (tZ t) in
      let gamma := lit 1.0 + pT p / atomic_mass_unit in
      let beta2 := lit 1.0 - lit 1.0 / (gamma * gamma) in
      let beta := fsqrt beta2 in
      let zp_eff := z_effective p t c in
      let Ipot := if lit 0.0 <? I then I else ipot (tZ t) in
      let f1 := dedx_constant * fpow zp_eff (lit 2.0) * tz / (beta2 * tA t) in
      let f2 := flog (lit 2.0 * electron_mass * lit 1000000 * beta2 / Ipot) in
      let eta := beta * gamma in
      let f2 :=
        if negb (corr_has c no_shell_correction) && (lit 0.13 <=? eta) then
          let cor := (lit 0.422377 * fpow eta (lit (-2))
                      + lit 0.0304043 * fpow eta (lit (-4))
                      - lit 0.00038106 * fpow eta (lit (-6))) * lit 1e-6 * fpow Ipot (lit 2)
                     + (lit 3.858019 * fpow eta (lit (-2))
                        - lit 0.1667989 * fpow eta (lit (-4))
                        + lit 0.00157955 * fpow eta (lit (-6))) * lit 1.0e-9 * fpow Ipot (lit 3) in
          f2 - cor / tz
        else f2 in
      let f2 := f2 + (lit 2 * flog gamma - beta2) in
      let barkas := if negb (corr_has c no_barkas) then bethek_barkas zp_eff eta tz else lit 1.0 in
      delta <- bethek_density_effect beta (tZ t) ;;
      LS <- (if negb (corr_has c no_lindhard) then precalculated_lindhard p else Ok (lit 0.0)) ;;
      let result := f2 * barkas + LS - delta / lit 2 in
      let result := result * f1 in
      Ok (if (lit 50000.0 <? pT p) && negb (corr_has c no_highenergy)
          then result + pair_production p t + bremsstrahlung p t
          else result).

  (** calculations.cpp:64-73 *)
  Definition bethek_dedx_e (p : Projectile F) (mat : Material F) (c : Config F) : outcome F :=
    ofold (fun sum t => d <- bethek_dedx_e_t p t c (m_I mat) ;; Ok (sum + wfrac mat t * d))
          (m_atoms mat) (lit 0.0).

  (** calculations.cpp:446-457.  The argument p.Z is converted to int. *)
  Definition sezi_dedx_e (p : Projectile F) (mat : Material F) (c : Config F) : outcome F :=
    let use95 := (c_low c =? srim_95)%Z in
    sum <- ofold (fun sum t =>
                    z <- cast (fto_int (pZ p)) ;;
                    d <- srim_dedx_e z (tZ t) (pT p) use95 ;;
                    Ok (sum + wfrac mat t * d / tA t))
                 (m_atoms mat) (lit 0.0) ;;
    Ok (lit 100 * sum * Avogadro).

  (** calculations.cpp:473-478 *)
  Definition energy_straggling_firsov (z1 energy z2 m2 : F) : F :=
    let gamma := gamma_from_T energy in
    let beta2 := lit 1.0 - lit 1.0 / (gamma * gamma) in
    let factor := lit 4.8184E-3 * fpow (z1 + z2) (lit 8.0 / lit 3.0) / m2 in
    factor * beta2 / fine_structure / fine_structure.

  (** calculations.cpp:517-552 *)
  Definition radiation_table : list (Z * dec) :=
    [(1, 63.04%dec); (2, 94.32%dec); (3, 82.78%dec); (4, 65.19%dec); (6, 42.7%dec);
     (7, 37.99%dec); (8, 34.24%dec); (9, 32.93%dec); (10, 28.94%dec); (13, 24.01%dec);
     (14, 21.82%dec); (17, 19.28%dec); (18, 19.55%dec); (22, 16.16%dec); (26, 13.84%dec);
     (29, 12.86%dec); (32, 12.25%dec); (50, 8.82%dec); (54, 8.48%dec); (74, 6.76%dec);
     (78, 6.54%dec); (79, 6.46%dec); (82, 6.37%dec); (92, 6.00%dec)]%Z.
  Fixpoint zassoc {A} (l : list (Z * A)) (z : Z) : option A :=
    match l with
    | [] => None
    | (k, v) :: l' => if (z =? k)%Z then Some v else zassoc l' z
    end.
  Definition radiation_length_z (z : Z) (m : F) : outcome F :=
    match zassoc radiation_table z with
    | Some d => Ok (lit d)
    | None =>
        zz <- imul z z ;;
        let z2 := ofZ zz in
        let z_13 := lit 1.0 / fpow (ofZ z) (lit 1 / lit 3) in
        let z_23 := z_13 * z_13 in
        let a2 := fine_structure * fine_structure * z2 in
        let a4 := a2 * a2 in
        let a6 := a4 * a2 in
        Ok (lit 716.405 * m
            / (z2 * (flog (lit 184.15 * z_13) + flog (lit 1194.0 * z_23) / ofZ z
                     - lit (-1.202) * a2 + lit 1.0369 * a4 - lit 1.008 * a6 / (lit 1 + a2))))
    end.

  (** calculations.cpp:554-562 *)
  Definition radiation_length (mat : Material F) : outcome F :=
    sum <- ofold (fun sum t => r <- radiation_length_z (tZ t) (tA t) ;; Ok (sum + wfrac mat t / r))
                 (m_atoms mat) (lit 0) ;;
    Ok (lit 1 / sum).

  (** calculations.cpp:564-567: both parameters are int *)
  Definition scattering_length_az (a z : Z) : outcome F :=
    az <- imul a z ;;
    let c := lit 0.00034896 * ofZ z * ofZ z
             * (lit 2 * flog (lit 33219 * fpow (ofZ az) (lit (-1.0) / lit 3.0)) - lit 1) / ofZ a in
    Ok (lit 1.0 / c).

  (** calculations.cpp:569-577: t.A is converted to int *)
  Definition scattering_length (mat : Material F) : outcome F :=
    sum <- ofold (fun sum t =>
                    a <- cast (fto_int (tA t)) ;;
                    r <- scattering_length_az a (tZ t) ;; Ok (sum + wfrac mat t / r))
                 (m_atoms mat) (lit 0) ;;
    Ok (lit 1 / sum).

  (** calculations.h:104 *)
  Definition Es2_FR : F := lit 198.81.

  (** calculations.cpp:480-489 *)
  Definition angular_scattering_power_t (p : Projectile F) (t : Target F) (Es2 : F) : outcome F :=
    if pT p <=? lit 0 then Ok (lit 0.0)
    else
      let e := pT p in
      let _p := p_from_T e (pA p) in
      let beta := _p / ((e + atomic_mass_unit) * pA p) in
      lr <- radiation_length_z (tZ t) (tA t) ;;
      Ok (Es2 * ipow (pZ p) 2 / (lr * ipow (_p * beta) 2)).

  (** calculations.cpp:491-500 *)
  Definition angular_scattering_power (p : Projectile F) (mat : Material F) (Es2 : F) : outcome F :=
    if pT p <=? lit 0 then Ok (lit 0.0)
    else
      let e := pT p in
      let _p := p_from_T e (pA p) in
      let beta := _p / ((e + atomic_mass_unit) * pA p) in
      X0 <- radiation_length mat ;;
      Ok (Es2 * ipow (pZ p) 2 / (X0 * ipow (_p * beta) 2)).

  (** calculations.cpp:502-514 *)
  Definition angular_scattering_power_xs (p : Projectile F) (mat : Material F) (p1 beta1 Es2 : F)
    : outcome F :=
    if pT p <=? lit 0 then Ok (lit 0.0)
    else
      let e := pT p in
      let _p := p_from_T e (pA p) in
      let beta := _p / ((e + atomic_mass_unit) * pA p) in
      let pv := _p * beta in
      let p1v1 := p1 * beta1 in
      Xs <- scattering_length mat ;;
      let cl1 := flog10 (lit 1 - ipow (pv / p1v1) 2) in
      let cl2 := flog10 pv in
      let f := lit 0.5244 + lit 0.1975 * cl1 + lit 0.2320 * cl2 - (lit 0.0098 * cl2 * cl1) in
      Ok (f * Es2 * ipow (pZ p) 2 / (Xs * ipow (_p * beta) 2)).

  (** calculations.cpp:616-636 *)
  Definition dedx_variance (p : Projectile F) (t : Target F) (c : Config F) : outcome F :=
    let tz := ofZ (tZ t) in
    let gamma := gamma_from_T (pT p) in
    let beta := beta_from_T (pT p) in
    let beta2 := beta * beta in
    let zp_eff := z_effective p t c in
    let f := domega2dx_constant * ipow zp_eff 2 * tz / tA t in
    let cor :=
      if (c_calc c =? omega_atima)%Z then
        let cor := lit 24.89 * fpow tz (lit 1.2324) / (electron_mass * lit 1e6 * beta2)
                   * flog (lit 2.0 * electron_mass * lit 1e6 * beta2
                           / (lit 33.05 * fpow tz (lit 1.6364))) in
        fmax cor (lit 0.0)
      else lit 0 in
    X <- precalculated_lindhard_X p ;;
    let X := X * (gamma * gamma) in
    Ok (if pT p <? lit 30.0
        then fmin (f * (X + cor)) (energy_straggling_firsov (pZ p) (pT p) tz (tA t))
        else f * (X + cor)).
End Calculations.
