(** * The survival probability in the build with the external library NUREX: src/reactions.cpp:8-57 (build_config.in:10)

    With the option NUREX the total reaction cross section comes from nurex::SigmaR_Kox and not from reactions.cpp:71-95; everything
    else of reactions.cpp is the same.  The external function is the parameter [cross_section]: it may be any function of its five
    arguments, and it may also fail. *)
From Coq Require Import ZArith List Bool.
From Verif Require Import Num Structures NucData EnergyTable Integrator Storage Catima.
Import ListNotations.

Section Nurex.
  Context {F : Type} {N : Num F}.
  Local Open Scope num_scope.
  Variable junk : nat -> F * F.
  Variable cross_section : Z -> Z -> F -> Z -> Z -> outcome F.

  (** reactions.cpp:33-43 *)
  Definition sigma_r_N (eo : F -> outcome F) (ap zp : Z) (target : Material F) (th : F) : outcome F :=
    e <- eo th ;;
    s <- ofold (fun acc t =>
           at_ <- get_isotope_a (tZ t) 0 ;;
           let f := mfrac target t in
           k <- cross_section ap zp e at_ (tZ t) ;;
           Ok (fst acc + f, snd acc + f * k))
         (m_atoms target) (lit 0.0, lit 0.0) ;;
    Ok (snd s / fst s).

  (** reactions.cpp:28-57 after the lookup *)
  Definition nonreaction_core_N (eo : F -> outcome F) (ap zp : Z) (target : Material F) : outcome F :=
    e1 <- eo (m_th target) ;;
    if e1 <? emin_reaction then Ok (lit (-1.0))
    else
      cs0 <- sigma_r_N eo ap zp target (lit 0) ;;
      cs1 <- sigma_r_N eo ap zp target (m_th target) ;;
      cs <- (if fabs (cs0 - cs1) / cs0 <? lit 0.05
             then Ok (number_density_cm2 target * (cs0 + cs1) / lit 2.0)
             else i <- integrate (sigma_r_N eo ap zp target) (lit 0) (m_th target) ;;
                  Ok (Avogadro * i / m_M target)) ;;
      Ok (fexp (- cs * lit 0.0001)).

  (** reactions.cpp:18-57 *)
  Definition nonreaction_rate_N p t c (w : world F) : outcome (F * world F) :=
    if pT p <? emin_reaction then Ok (lit (-1.0), w)
    else if m_th t <=? lit 0.0 then Ok (lit 1.0, w)
    else
      ap <- cast (flround (pA p)) ;;
      zp <- cast (flround (pZ p)) ;;
      ' (d, w) <- lookup junk p t c w ;;
      r <- nonreaction_core_N (energy_out_sp (dp_range_spline d) (pT p)) ap zp t ;;
      Ok (r, w).
End Nurex.
