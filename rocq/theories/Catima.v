(** * The library interface: src/catima.cpp, nonreaction_rate of src/reactions.cpp

    Functions that look tables up take and return the global state [world].  Every function reads
    its slot immediately after the lookup and before any further lookup, so the slot's contents are
    read once.  [junk k] is what the k-th spline construction finds in the two matrix elements it
    never writes. *)
From Coq Require Import ZArith List Bool.
From Verif Require Import Num Structures EnergyTable Spline Integrator Calculations NucData
  Reactions Storage.
Import ListNotations.

Section EnergyOut.
  Context {F : Type} {N : Num F}.
  Local Open Scope num_scope.

  (** catima.cpp:213-224: the Newton loop.  [rng], [drv] are value and derivative of the range
      spline, [k] is 100 - counter.  assert(counter<=100) is a no-op. *)
  Fixpoint newton (rng drv : F -> outcome F) (range thickness : F) (k : nat) (e dedx : F)
    : outcome F :=
    re <- rng e ;;
    let r := range - re - thickness in
    if fabs r <? Eout_th_epsilon then Ok e
    else
      let step := - r * dedx in
      let e := e - step in
      if e <? Ezero then Ok (lit 0.0)
      else
        d <- drv e ;;
        match k with
        | O => Ok (lit (-1))
        | S k' => newton rng drv range thickness k' e (lit 1.0 / d)
        end.

  (** catima.cpp:203-226 *)
  Definition energy_out_fn (rng drv : F -> outcome F) (T thickness : F) : outcome F :=
    range <- rng T ;;
    d <- drv T ;;
    let dedx := lit 1.0 / d in
    if range <=? thickness then Ok (lit 0.0)
    else newton rng drv range thickness 100 (T - (thickness * dedx)) dedx.

  Definition energy_out_sp (s : option (spline F)) (T thickness : F) : outcome F :=
    energy_out_fn (interp_eval s) (interp_deriv s) T thickness.
End EnergyOut.

Section Pure.
  Context {F : Type} {N : Num F}.
  Local Open Scope num_scope.

  (** catima.cpp:134-139 *)
  Definition Tfr (p : Projectile F) (X Es2 : F) : F :=
    if pT p <=? lit 0 then lit 0.0
    else
      let _p := p_from_T (pT p) (pA p) in
      let beta := _p / ((pT p + atomic_mass_unit) * pA p) in
      Es2 / (X * ipow (_p * beta) 2).

  (** catima.cpp:148, 346, 350: std::min(range/density, thickness_cm) *)
  Definition residual_range (range : F) (t : Material F) : F :=
    fmin (range / m_rho t) (thickness_cm t).

  (** catima.cpp:156-168: fx0p; [eo th] is energy_out(T, th, range_spline) *)
  Definition dhighland_ff (l : F) : F :=
    let lnl := flog l in
    lit 0.97 * (lit 1 + lnl / lit 20.7) * (lit 1 + lnl / lit 22.7).
  Definition fx0p (eo : F -> outcome F) (p : Projectile F) (t : Material F) (c : Config F)
             (X0 rrange : F) (order : Z) (x : F) : outcome F :=
    e <- eo (x * m_rho t) ;;
    let d := ipow (rrange - x) order in
    let ff := if (c_scat c =? sc_dhighland)%Z then dhighland_ff (x * m_rho t / X0) else lit 1 in
    Ok (d * ff * Tfr (at_T p e) (lit 1) (lit 1.0)).
  (** catima.cpp:170-174: fx0p_2; angular_scattering_power_xs has the default Es2 = 225.0
      (calculations.h:121) *)
  Definition fx0p_2 (eo : F -> outcome F) (p : Projectile F) (t : Material F)
             (p1 beta1 rrange : F) (order : Z) (x : F) : outcome F :=
    e <- eo (x * m_rho t) ;;
    let d := ipow (rrange - x) order in
    a <- angular_scattering_power_xs (at_T p e) t p1 beta1 (lit 225.0) ;;
    Ok (d * a).

  (** catima.cpp:141-181 after the lookup; [rng] is the range spline and [eo] energy_out with it.
      The asserts on T, density and thickness are no-ops. *)
  Definition angular_variance_with (rng eo : F -> outcome F) (p : Projectile F) (t : Material F)
             (c : Config F) (order : Z) : outcome F :=
    let T := pT p in
    let p1 := p_from_T T (pA p) in
    let beta1 := p1 / ((T + atomic_mass_unit) * pA p) in
    range <- rng T ;;
    let rrange := residual_range range t in
    X0 <- radiation_length t ;;
    if (c_scat c =? sc_gottschalk)%Z then
      i <- integrate (fx0p_2 eo p t p1 beta1 rrange order) (lit 0) rrange ;;
      Ok (i * m_rho t)
    else
      i <- integrate (fx0p eo p t c X0 rrange order) (lit 0) rrange ;;
      Ok (i * m_rho t * ipow (pZ p) 2 * scattering_Es2 c / X0).

  (** catima.cpp:447-453 *)
  Definition tof_integrand (p : Projectile F) (t : Material F) (c : Config F) (x : F) : outcome F :=
    d <- dedx (at_T p x) t c ;; Ok (lit 1.0 / (d * beta_from_T x)).
  Definition tof_scale (p : Projectile F) (t : Material F) (res : F) : F :=
    res * lit 10.0 * pA p / (c_light * m_rho t).
  Definition calculate_tof_from_E (p : Projectile F) (Eout : F) (t : Material F) (c : Config F)
    : outcome F :=
    res <- integrate (tof_integrand p t c) Eout (pT p) ;; Ok (tof_scale p t res).

  (** catima.cpp:254-269 *)
  Fixpoint tof_loop (f : F -> F -> outcome F) (lo : F) (rest : list F) (prev : F)
    : outcome (list F) :=
    match rest with
    | [] => Ok []
    | hi :: rest' =>
        r <- f lo hi ;;
        let v := r + prev in
        l <- tof_loop f hi rest' v ;; Ok (v :: l)
    end.
  Definition calculate_tof (p : Projectile F) (t : Material F) (c : Config F) : outcome (list F) :=
    let piece lo hi := r <- integrate (tof_integrand p t c) lo hi ;; Ok (tof_scale p t r) in
    match et_values energy_table with
    | [] => UB OutOfBounds
    | e0 :: rest =>
        v0 <- piece Ezero e0 ;; l <- tof_loop piece e0 rest v0 ;; Ok (v0 :: l)
    end.

  (** reactions.cpp:33-43: sigma_r; [eo th] is energy_out(projectile.T, th, range_spline) *)
  Definition sigma_r (eo : F -> outcome F) (ap zp : Z) (target : Material F) (th : F) : outcome F :=
    e <- eo th ;;
    s <- ofold (fun acc t =>
           at_ <- get_isotope_a (tZ t) 0 ;;
           let f := mfrac target t in
           k <- SigmaR_Kox ap zp e at_ (tZ t) ;;
           Ok (fst acc + f, snd acc + f * k))
         (m_atoms target) (lit 0.0, lit 0.0) ;;
    Ok (snd s / fst s).

  (** reactions.cpp:28-57 after the lookup *)
  Definition nonreaction_core (eo : F -> outcome F) (ap zp : Z) (target : Material F) : outcome F :=
    e1 <- eo (m_th target) ;;
    if e1 <? emin_reaction then Ok (lit (-1.0))
    else
      cs0 <- sigma_r eo ap zp target (lit 0) ;;
      cs1 <- sigma_r eo ap zp target (m_th target) ;;
      cs <- (if fabs (cs0 - cs1) / cs0 <? lit 0.05
             then Ok (number_density_cm2 target * (cs0 + cs1) / lit 2.0)
             else i <- integrate (sigma_r eo ap zp target) (lit 0) (m_th target) ;;
                  Ok (Avogadro * i / m_M target)) ;;
      Ok (fexp (- cs * lit 0.0001)).

  (** catima.cpp:292-342: the part of calculate before the angular moments.  [ang] is the value of
      angular_straggling(p,t,c), used only for scattering modes without table; [tof Eout] is
      calculate_tof_from_E.  Outcome fields: Eout, Eloss, dEdxo, sigma_E, sigma_a, tof. *)
  Definition sigma_E_of (p : Projectile F) (rss : option (spline F)) (T Eout dEdxo : F)
    : outcome F :=
    if thin_target_limit * T <? Eout then
      let edif := T - Eout in
      s1 <- interp_deriv rss T ;;
      s2 <- interp_deriv rss Eout ;;
      Ok (dEdxo * fsqrt (edif * lit 0.5 * (s1 + s2)) / pA p)
    else
      v1 <- interp_eval rss T ;;
      v2 <- interp_eval rss Eout ;;
      Ok (dEdxo * fsqrt (v1 - v2) / pA p).
  Definition sigma_a_of (avs : option (spline F)) (T Eout : F) : outcome F :=
    if thin_target_limit * T <? Eout then
      let edif := T - Eout in
      s1 <- interp_deriv avs T ;;
      s2 <- interp_deriv avs Eout ;;
      Ok (fsqrt (lit 0.5 * (s1 + s2) * edif))
    else
      v1 <- interp_eval avs T ;;
      v2 <- interp_eval avs Eout ;;
      Ok (fsqrt (v1 - v2)).
End Pure.

Section Catima.
  Context {F : Type} {N : Num F}.
  Variable junk : nat -> F * F.
  Local Open Scope num_scope.

  (** _storage.Get followed by the reference being read *)
  Definition lookup (p : Projectile F) (t : Material F) (c : Config F) (w : world F)
    : outcome (DataPoint F * world F) :=
    ' (i, w) <- data_get junk calculate_DataPoint p t c w ;;
    d <- slot w i ;; Ok (d, w).

  (** catima.cpp:62-67 *)
  Definition range (p : Projectile F) (t : Material F) (c : Config F) (w : world F)
    : outcome (F * world F) :=
    ' (d, w) <- lookup p t c w ;;
    r <- interp_eval (dp_range_spline d) (pT p) ;; Ok (r, w).

  (** catima.cpp:69-74 *)
  Definition dedx_from_range p t c (w : world F) : outcome (F * world F) :=
    ' (d, w) <- lookup p t c w ;;
    r <- interp_deriv (dp_range_spline d) (pT p) ;; Ok (pA p / r, w).

  (** catima.cpp:76-91 *)
  Definition dedx_from_range_v p (T : list F) t c (w : world F) : outcome (list F * world F) :=
    ' (d, w) <- lookup p t c w ;;
    l <- omapM (fun e => if e <? Ezero then Ok (lit 0.0)
                         else r <- interp_deriv (dp_range_spline d) e ;; Ok (pA p / r)) T ;;
    Ok (l, w).

  (** catima.cpp:93-98, 100-105, 107-112 *)
  Definition range_straggling p (T : F) t c (w : world F) : outcome (F * world F) :=
    ' (d, w) <- lookup p t c w ;;
    r <- interp_eval (dp_rs_spline d) T ;; Ok (fsqrt r, w).
  Definition range_variance p (T : F) t c (w : world F) : outcome (F * world F) :=
    ' (d, w) <- lookup p t c w ;;
    r <- interp_eval (dp_rs_spline d) T ;; Ok (r, w).
  Definition domega2de p (T : F) t c (w : world F) : outcome (F * world F) :=
    ' (d, w) <- lookup p t c w ;;
    r <- interp_deriv (dp_rs_spline d) T ;; Ok (r, w).

  (** catima.cpp:141-181 *)
  Definition angular_variance p t c (order : Z) (w : world F) : outcome (F * world F) :=
    ' (d, w) <- lookup p t c w ;;
    v <- angular_variance_with (interp_eval (dp_range_spline d))
           (energy_out_sp (dp_range_spline d) (pT p)) p t c order ;;
    Ok (v, w).

  (** catima.cpp:183-185; the default order is 0 (catima.h:131) *)
  Definition angular_straggling p t c (w : world F) : outcome (F * world F) :=
    ' (v, w) <- angular_variance p t c 0 w ;; Ok (fsqrt v, w).

  (** catima.cpp:187-193 *)
  Definition angular_straggling_from_E p (Tout : F) t c (w : world F) : outcome (F * world F) :=
    ' (d, w) <- lookup p t c w ;;
    r1 <- interp_eval (dp_range_spline d) (pT p) ;;
    r2 <- interp_eval (dp_range_spline d) Tout ;;
    angular_straggling p (set_thickness t (r1 - r2)) c w.

  (** catima.cpp:195-201 *)
  Definition energy_straggling_from_E p (T Tout : F) t c (w : world F) : outcome (F * world F) :=
    ' (d, w) <- lookup p t c w ;;
    dr <- interp_deriv (dp_range_spline d) Tout ;;
    let dEdxo := pA p / dr in
    v1 <- interp_eval (dp_rs_spline d) T ;;
    v2 <- interp_eval (dp_rs_spline d) Tout ;;
    Ok (dEdxo * fsqrt (v1 - v2) / pA p, w).

  (** catima.cpp:228-233 *)
  Definition energy_out p t c (w : world F) : outcome (F * world F) :=
    ' (d, w) <- lookup p t c w ;;
    e <- energy_out_sp (dp_range_spline d) (pT p) (m_th t) ;; Ok (e, w).

  (** catima.cpp:235-252 *)
  Definition energy_out_v p (T : list F) t c (w : world F) : outcome (list F * world F) :=
    ' (d, w) <- lookup p t c w ;;
    l <- omapM (fun e => if e <? Ezero then Ok (lit 0.0)
                         else energy_out_sp (dp_range_spline d) e (m_th t)) T ;;
    Ok (l, w).

  (** reactions.cpp:18-57 *)
  Definition nonreaction_rate p t c (w : world F) : outcome (F * world F) :=
    if pT p <? emin_reaction then Ok (lit (-1.0), w)
    else if m_th t <=? lit 0.0 then Ok (lit 1.0, w)
    else
      ap <- cast (flround (pA p)) ;;
      zp <- cast (flround (pZ p)) ;;
      ' (d, w) <- lookup p t c w ;;
      r <- nonreaction_core (energy_out_sp (dp_range_spline d) (pT p)) ap zp t ;;
      Ok (r, w).

  (** catima.cpp:271-356.  The time of flight is computed with default_config because
      calculate_tof_from_E is called without a config (line 341). *)
  Definition calculate (p : Projectile F) (t : Material F) (c : Config F) (w : world F)
    : outcome (Result F * world F) :=
    let T := pT p in
    if (T <? Ezero) && (T <? Ezero - numeric_epsilon) then Ok (Result0, w)
    else
      ' (d, w) <- lookup p t c w ;;
      let use_angular_spline := (c_scat c =? sc_atima)%Z in
      rg <- interp_eval (dp_range_spline d) T ;;
      dr <- interp_deriv (dp_range_spline d) T ;;
      let dEdxi := pA p / dr in
      sv <- interp_eval (dp_rs_spline d) T ;;
      let sigma_r := fsqrt sv in
      if m_th t =? lit 0 then
        Ok (mkResult T T (lit 0.0) rg dEdxi dEdxi (lit 0.0) (lit 0.0) sigma_r
                     (lit 0.0) (lit 0.0) (lit 0.0) (lit 1.0), w)
      else
        Eout <- energy_out_sp (dp_range_spline d) T (m_th t) ;;
        let Eloss := (T - Eout) * pA p in
        ' (dEdxo, sigma_E, sigma_a, tof, w) <-
          (if Eout <? Ezero
           then Ok (lit 0.0, lit 0.0, lit 0.0, lit 0.0, w)
           else
             do_ <- interp_deriv (dp_range_spline d) Eout ;;
             let dEdxo := pA p / do_ in
             sigma_E <- sigma_E_of p (dp_rs_spline d) T Eout dEdxo ;;
             sa <- (if use_angular_spline then sigma_a_of (dp_av_spline d) T Eout
                    else Ok (lit 0.0)) ;;
             ' (sa, w) <- (if negb use_angular_spline && (m_th t <? rg)
                           then angular_straggling p t c w else Ok (sa, w)) ;;
             tof <- calculate_tof_from_E p Eout t (w_default w) ;;
             Ok (dEdxo, sigma_E, sa, tof, w)) ;;
        ' (vx, w) <- angular_variance p t c 2 w ;;
        ' (cov, w) <- angular_variance p t c 1 w ;;
        ' (sp, w) <- nonreaction_rate p t c w ;;
        Ok (mkResult T Eout Eloss rg dEdxi dEdxo sigma_E sigma_a sigma_r (fsqrt vx) cov tof sp, w).

  (** catima.cpp:358-396: one pass of the loop, on (e, total_result, results) *)
  Definition layer_update (m : Material F) (r tot : Result F) : Result F :=
    let a2 := r_sigma_a tot in
    let l := thickness_cm m in
    mkResult (r_Ein tot)
             (r_Eout r)
             (r_Eloss tot + r_Eloss r)
             (r_range tot) (r_dEdxi tot) (r_dEdxo tot)
             (r_sigma_E tot + r_sigma_E r * r_sigma_E r)
             (a2 + r_sigma_a r * r_sigma_a r)
             (r_sigma_r tot)
             (r_sigma_x tot + ((lit 2 * l * r_cov tot) + (a2 * l * l) + r_sigma_x r * r_sigma_x r))
             (r_cov tot + (a2 * l + r_cov r))
             (r_tof tot + r_tof r)
             (if lit 0.0 <=? r_sp r then r_sp tot * r_sp r else lit (-1)).

  Fixpoint layers_loop (p : Projectile F) (c : Config F) (layers : list (Material F))
           (e : F) (tot : Result F) (w : world F)
    : outcome (list (Result F) * F * Result F * world F) :=
    match layers with
    | [] => Ok ([], e, tot, w)
    | m :: layers' =>
        ' (r, w) <- calculate (at_T p e) m c w ;;
        ' (rs, e, tot, w) <- layers_loop p c layers' (r_Eout r) (layer_update m r tot) w ;;
        Ok (r :: rs, e, tot, w)
    end.

  Definition total0 (p : Projectile F) (ps : Phasespace F) : Result F :=
    mkResult (pT p) (lit 0.0) (lit 0.0) (lit 0.0) (lit 0.0) (lit 0.0) (lit 0.0)
             (ps_sigma_a ps * ps_sigma_a ps) (lit 0.0) (ps_sigma_x ps * ps_sigma_x ps)
             (ps_cov_x ps) (lit 0.0) (lit 1.0).

  Definition total_finish (e : F) (tot : Result F) : Result F :=
    let sx := fsqrt (fabs (r_sigma_x tot)) in
    let '(sa, sE) := if Ezero <? e then (fsqrt (r_sigma_a tot), fsqrt (r_sigma_E tot))
                     else (lit 0.0, lit 0.0) in
    mkResult (r_Ein tot) (r_Eout tot) (r_Eloss tot) (r_range tot) (r_dEdxi tot) (r_dEdxo tot)
             sE sa (r_sigma_r tot) sx (r_cov tot) (r_tof tot) (r_sp tot).

  Definition calculate_layers (p : Projectile F) (ps : Phasespace F) (layers : Layers F)
             (c : Config F) (w : world F) : outcome (MultiResult F * world F) :=
    ' (rs, e, tot, w) <- layers_loop p c layers (pT p) (total0 p ps) w ;;
    Ok (mkMulti rs (total_finish e tot), w).

  (** catima.cpp:398-402: tz is converted to int; the config is default_config *)
  Definition calculate_7 (pa : F) (pz : Z) (T ta tz thickness density : F) (w : world F)
    : outcome (Result F * world F) :=
    z <- cast (fto_int tz) ;;
    calculate (at_T (Projectile_ pa (ofZ pz) (lit 0) (lit 0)) T)
              (Material_elem ta z density thickness (lit 0.0)) (w_default w) w.

  (** catima.cpp:455-471 *)
  Definition w_magnification p (Ein : F) t c (w : world F) : outcome ((F * F) * world F) :=
    if (m_rho t <=? lit 0.0) || (m_th t <=? lit 0) then Ok ((lit 1.0, lit 1.0), w)
    else
      let e0 := lit 0.99 * Ein in
      let e1 := Ein in
      let e2 := lit 1.01 * Ein in
      ' (l, w) <- energy_out_v p [e0; e1; e2] t c w ;;
      r0 <- aget l 0 ;; r1 <- aget l 1 ;; r2 <- aget l 2 ;;
      if (lit 0.0 <? r0) && (lit 0.0 <? r1) && (lit 0.0 <? r2) then
        let P x := p_from_T x (pA p) in
        Ok ((e1 * (r2 - r0) / (r1 * (e2 - e0)),
             P e1 * (P r2 - P r0) / (P r1 * (P e2 - P e0))), w)
      else Ok ((lit 0.0, lit 0.0), w).
End Catima.
