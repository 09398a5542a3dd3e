(** * The effective charge in the build with the external charge-state code

    With the build option GLOBAL (CMakeLists.txt:21, :48-50, build_config.in:8) the library is linked with the charge-state
    program GLOBAL, which is not in the tree. Its one function, [global_qmean(pz, tz, E)] (calculations.cpp:757), is an argument
    of the definitions below; nothing is assumed about it here. *)
From Coq Require Import ZArith Bool.
From Verif Require Import Num Structures Calculations.
Local Open Scope num_scope.

Section GlobalCharge.
  Context {F : Type} {N : Num F}.
  Variable global_qmean : F -> F -> F -> F.

  (** config.h:61-73, default member initialisers with GLOBAL *)
  Definition Config0_G : Config F := mkConfig z_atima14 0 1 srim_85 sc_atima (lit 1.0).

  (** calculations.cpp:749-763 *)
  Definition z_eff_global_G (pz E tz : F) : F :=
    if lit 2000 <? E then pz
    else if (E <? lit 30.0) || (pz <? lit 29) then z_eff_Pierce_Blann pz E
    else global_qmean pz tz E.

  (** calculations.cpp:778-833. [qhigh] and [qwinger] are declared without a value (:782); each use follows an assignment,
      so they are the expressions assigned. *)
  Definition z_eff_atima14_G (pz T tz : F) : F :=
    let beta := beta_from_T T in
    let gamma := gamma_from_T T in
    let qpb := z_eff_Pierce_Blann pz beta in
    let qglobal :=
      if (lit 30.0 <? T) && (T <? lit 1500.0) && (lit 28 <? pz) then
        (z_eff_global_G pz T tz - qpb) * lit 1.4 / fpow (tz + lit 1) (lit 0.28) * (lit 1 - fexp (- lit 0.04 * T)) + qpb
      else lit 0.0 in
    let qhigh := pz * (lit 1.0 - fexp (lit (-180.0) * beta * fpow gamma (lit 0.18) * fpow pz (lit (-0.82)) * fpow tz (lit 0.1))) in
    let qwinger := z_eff_Winger pz beta tz in
    let emax := lit 1500 in
    let emin := lit 1000 in
    if emax <? T then qhigh
    else if (emin <=? T) && (T <=? emax) then
      if pz <=? lit 28 then ((emax - T) * qwinger + (T - emin) * qhigh) / (emax - emin)
      else ((emax - T) * qglobal + (T - emin) * qhigh) / (emax - emin)
    else
      let emax := lit 70.0 in
      let emin := lit 30.0 in
      if pz <=? lit 28 then qwinger
      else if emax <=? T then qglobal
      else if T <? emin then qwinger
      else ((emax - T) * qwinger + (T - emin) * qglobal) / (emax - emin).

  (** calculations.cpp:638-671 *)
  Definition z_effective_G (p : Projectile F) (t : Target F) (c : Config F) : F :=
    if (c_zeff c =? z_none)%Z then pQ p
    else
      let gamma := lit 1.0 + pT p / atomic_mass_unit in
      let beta := fsqrt (lit 1.0 - lit 1.0 / (gamma * gamma)) in
      let tz := ofZ (tZ t) in
      if (c_zeff c =? z_pierce_blann)%Z then z_eff_Pierce_Blann (pZ p) beta
      else if (c_zeff c =? z_anthony_landorf)%Z then z_eff_Anthony_Landford (pZ p) beta tz
      else if (c_zeff c =? z_hubert)%Z then z_eff_Hubert (pZ p) (pT p) tz
      else if (c_zeff c =? z_winger)%Z then z_eff_Winger (pZ p) beta tz
      else if (c_zeff c =? z_global)%Z then z_eff_global_G (pZ p) (pT p) tz
      else if (c_zeff c =? z_atima14)%Z then z_eff_atima14_G (pZ p) (pT p) tz
      else if (c_zeff c =? z_schiwietz)%Z then z_eff_Schiwietz (pZ p) beta tz
      else lit 0.0.
End GlobalCharge.
