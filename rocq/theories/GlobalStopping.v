(** * The stopping power and the tables in the build with the external charge-state code

    The functions that use the effective charge, with that of the build option GLOBAL (GlobalCharge.v); [global_qmean] is any
    function. *)
From Coq Require Import ZArith List Bool.
From Verif Require Import Num Structures DataElements EnergyTable Integrator Srim Calculations Storage GlobalCharge.
Import ListNotations.
Local Open Scope num_scope.

Section GlobalStopping.
  Context {F : Type} {N : Num F}.
  Variable global_qmean : F -> F -> F -> F.
  Notation zeff := (z_effective_G global_qmean).

  (** calculations.cpp:75-123 *)
  Definition bethek_dedx_e_t_G (p : Projectile F) (t : Target F) (c : Config F) (I : F) : outcome F :=
    if pT p =? lit 0 then Ok (lit 0.0)
    else
      let tz := ofZ (tZ t) in
      let gamma := lit 1.0 + pT p / atomic_mass_unit in
      let beta2 := lit 1.0 - lit 1.0 / (gamma * gamma) in
      let beta := fsqrt beta2 in
      let zp_eff := zeff p t c in
      let Ipot := if lit 0.0 <? I then I else ipot (tZ t) in
      let f1 := dedx_constant * fpow zp_eff (lit 2.0) * tz / (beta2 * tA t) in
      let f2 := flog (lit 2.0 * electron_mass * lit 1000000 * beta2 / Ipot) in
      let eta := beta * gamma in
      let f2 :=
        if negb (corr_has c no_shell_correction) && (lit 0.13 <=? eta) then
          let cor := (lit 0.422377 * fpow eta (lit (-2))
                      + lit 0.0304043 * fpow eta (lit (-4))
                      - lit 0.00038106 * fpow eta (lit (-6))) * lit 1e-6 * fpow Ipot (lit 2)
                     + (lit 3.858019 * fpow eta (lit (-2))
                        - lit 0.1667989 * fpow eta (lit (-4))
                        + lit 0.00157955 * fpow eta (lit (-6))) * lit 1.0e-9 * fpow Ipot (lit 3) in
          f2 - cor / tz
        else f2 in
      let f2 := f2 + (lit 2 * flog gamma - beta2) in
      let barkas := if negb (corr_has c no_barkas) then bethek_barkas zp_eff eta tz else lit 1.0 in
      delta <- bethek_density_effect beta (tZ t) ;;
      LS <- (if negb (corr_has c no_lindhard) then precalculated_lindhard p else Ok (lit 0.0)) ;;
      let result := f2 * barkas + LS - delta / lit 2 in
      let result := result * f1 in
      Ok (if (lit 50000.0 <? pT p) && negb (corr_has c no_highenergy)
          then result + pair_production p t + bremsstrahlung p t
          else result).

  (** calculations.cpp:64-73 *)
  Definition bethek_dedx_e_G (p : Projectile F) (mat : Material F) (c : Config F) : outcome F :=
    ofold (fun sum t => d <- bethek_dedx_e_t_G p t c (m_I mat) ;; Ok (sum + wfrac mat t * d))
          (m_atoms mat) (lit 0.0).

  (** catima.cpp:31-49 *)
  Definition dedx_G (p : Projectile F) (mat : Material F) (c : Config F) : outcome F :=
    if pT p <=? lit 0 then Ok (lit 0.0)
    else
      let sum := lit 0 + dedx_n p mat in
      se <- (if pT p <=? lit 10 then sezi_dedx_e p mat c
             else if (lit 10 <? pT p) && (pT p <? lit 30) then
               let factor := lit 0.05 * (pT p - lit 10.0) in
               s <- sezi_dedx_e p mat c ;;
               b <- bethek_dedx_e_G p mat c ;;
               Ok ((lit 1 - factor) * s + factor * b)
             else bethek_dedx_e_G p mat c) ;;
      Ok (sum + se).

  (** calculations.cpp:616-636 *)
  Definition dedx_variance_G (p : Projectile F) (t : Target F) (c : Config F) : outcome F :=
    let tz := ofZ (tZ t) in
    let gamma := gamma_from_T (pT p) in
    let beta := beta_from_T (pT p) in
    let beta2 := beta * beta in
    let zp_eff := zeff p t c in
    let f := domega2dx_constant * ipow zp_eff 2 * tz / tA t in
    let cor :=
      if (c_calc c =? omega_atima)%Z then
        let cor := lit 24.89 * fpow tz (lit 1.2324) / (electron_mass * lit 1e6 * beta2)
                   * flog (lit 2.0 * electron_mass * lit 1e6 * beta2
                           / (lit 33.05 * fpow tz (lit 1.6364))) in
        fmax cor (lit 0.0)
      else lit 0 in
    X <- precalculated_lindhard_X p ;;
    let X := X * (gamma * gamma) in
    Ok (if pT p <? lit 30.0
        then fmin (f * (X + cor)) (energy_straggling_firsov (pZ p) (pT p) tz (tA t))
        else f * (X + cor)).

  (** catima.cpp:51-60 *)
  Definition domega2dx_G (p : Projectile F) (mat : Material F) (c : Config F) : outcome F :=
    ofold (fun sum t => v <- dedx_variance_G p t c ;; Ok (sum + wfrac mat t * v))
          (m_atoms mat) (lit 0).

  (** catima.cpp:130-132 *)
  Definition da2de_G (p : Projectile F) (mat : Material F) (c : Config F) : outcome F :=
    a <- da2dx p mat c ;; d <- dedx_G p mat c ;; Ok (a / d).

  (** catima.cpp:409-445: the three tables of a stored entry *)
  Definition fdedx_G (p : Projectile F) (t : Material F) (c : Config F) (x : F) : outcome F :=
    d <- dedx_G (at_T p x) t c ;; Ok (lit 1.0 / d).
  Definition fomega_G (p : Projectile F) (t : Material F) (c : Config F) (x : F) : outcome F :=
    o <- domega2dx_G (at_T p x) t c ;; d <- dedx_G (at_T p x) t c ;; Ok (o / power d (lit 3)).
  Definition ftheta_G (p : Projectile F) (t : Material F) (c : Config F) (x : F) : outcome F :=
    da2de_G (at_T p x) t c.
  Definition range_table_G p t c : outcome (list F) :=
    table (scaled_integral (pA p) (fdedx_G p t c)) (et_values energy_table).
  Definition straggling_table_G p t c : outcome (list F) :=
    table (scaled_integral (pA p) (fomega_G p t c)) (et_values energy_table).
  Definition angular_table_G p t c : outcome (list F) :=
    table (scaled_integral (pA p) (ftheta_G p t c)) (et_values energy_table).
End GlobalStopping.
