(** * The library built with other options: STORE_SPLINES, THIN_TARGET_APPROXIMATION and REACTIONS

    CMakeLists.txt:20-29, build_config.in.  Catima.v is the default build, in which all three are on; here
    each is a parameter.  Without STORE_SPLINES the entries of the table cache hold no splines
    (storage.h:219-223, storage.cpp:119-127) and every function constructs the splines it uses
    (storage.h:194-198, storage.cpp:71-101).  Without REACTIONS there is no nonreaction_rate and a Result has no
    field sp (structures.h:241-243, catima.cpp:352-354, 379-381); the model keeps the field with its initial value 1. *)
From Coq Require Import ZArith List Bool.
From Verif Require Import Num Structures EnergyTable Spline Integrator Calculations NucData Reactions Storage Catima History.
Import ListNotations.

Record Build := mkBuild { store_splines : bool; thin_approximation : bool; reactions : bool }.
Definition default_build : Build := mkBuild true true true.

Section Builds.
  Context {F : Type} {N : Num F}.
  Variable junk : nat -> F * F.
  Variable b : Build.
  Local Open Scope num_scope.

  (** storage.cpp:112-128 *)
  Definition data_add_b (p : Projectile F) (t : Material F) (c : Config F) (w : world F) : outcome (world F) :=
    if store_splines b then data_add junk calculate_DataPoint p t c w
    else
      let dp := mkDP p t c [] [] [] None None None in
      match find_slot (fun e => dp_eqb e dp) (w_slots w) with
      | Some _ => Ok w
      | None =>
          let i := if Nat.eqb (w_index w) (length (w_slots w)) then O else w_index w in
          d <- calculate_DataPoint p t c ;;
          if (i <? length (w_slots w))%nat
          then Ok (mkW (set_slot (w_slots w) i d) (S i) (w_default w) (w_junk w))
          else UB OutOfBounds
      end.
  (** storage.cpp:130-139 and the read through the reference *)
  Definition data_get_b (p : Projectile F) (t : Material F) (c : Config F) (w : world F) : outcome (nat * world F) :=
    match find_slot (key_match p t c) (w_slots w) with
    | Some i => Ok (i, w)
    | None =>
        w' <- data_add_b p t c w ;;
        match w_index w' with
        | O => UB OutOfBounds
        | S i => Ok (i, w')
        end
    end.
  Definition lookup_b (p : Projectile F) (t : Material F) (c : Config F) (w : world F) : outcome (DataPoint F * world F) :=
    ' (i, w) <- data_get_b p t c w ;;
    d <- slot w i ;; Ok (d, w).

  (** storage.cpp:71-101: the stored spline, or a new one from the table *)
  Definition get_spline (stored : option (spline F)) (y : list F) (w : world F) : outcome (option (spline F) * world F) :=
    if store_splines b then Ok (stored, w)
    else s <- make_spline energy_table y (junk (w_junk w)) ;;
         Ok (Some s, mkW (w_slots w) (w_index w) (w_default w) (w_junk w + 1)).
  Definition get_range_spline (d : DataPoint F) (w : world F) := get_spline (dp_range_spline d) (dp_range d) w.
  Definition get_range_straggling_spline (d : DataPoint F) (w : world F) := get_spline (dp_rs_spline d) (dp_rs d) w.
  Definition get_angular_variance_spline (d : DataPoint F) (w : world F) := get_spline (dp_av_spline d) (dp_av d) w.

  (** catima.cpp:62-67, 69-74, 76-91 *)
  Definition range_b (p : Projectile F) (t : Material F) (c : Config F) (w : world F) : outcome (F * world F) :=
    ' (d, w) <- lookup_b p t c w ;;
    ' (s, w) <- get_range_spline d w ;;
    r <- interp_eval s (pT p) ;; Ok (r, w).
  Definition dedx_from_range_b p t c (w : world F) : outcome (F * world F) :=
    ' (d, w) <- lookup_b p t c w ;;
    ' (s, w) <- get_range_spline d w ;;
    r <- interp_deriv s (pT p) ;; Ok (pA p / r, w).
  Definition dedx_from_range_v_b p (T : list F) t c (w : world F) : outcome (list F * world F) :=
    ' (d, w) <- lookup_b p t c w ;;
    ' (s, w) <- get_range_spline d w ;;
    l <- omapM (fun e => if e <? Ezero then Ok (lit 0.0)
                         else r <- interp_deriv s e ;; Ok (pA p / r)) T ;;
    Ok (l, w).

  (** catima.cpp:93-98, 100-105, 107-112 *)
  Definition range_straggling_b p (T : F) t c (w : world F) : outcome (F * world F) :=
    ' (d, w) <- lookup_b p t c w ;;
    ' (s, w) <- get_range_straggling_spline d w ;;
    r <- interp_eval s T ;; Ok (fsqrt r, w).
  Definition range_variance_b p (T : F) t c (w : world F) : outcome (F * world F) :=
    ' (d, w) <- lookup_b p t c w ;;
    ' (s, w) <- get_range_straggling_spline d w ;;
    r <- interp_eval s T ;; Ok (r, w).
  Definition domega2de_b p (T : F) t c (w : world F) : outcome (F * world F) :=
    ' (d, w) <- lookup_b p t c w ;;
    ' (s, w) <- get_range_straggling_spline d w ;;
    r <- interp_deriv s T ;; Ok (r, w).

  (** catima.cpp:141-181, 183-185, 187-193 *)
  Definition angular_variance_b p t c (order : Z) (w : world F) : outcome (F * world F) :=
    ' (d, w) <- lookup_b p t c w ;;
    ' (s, w) <- get_range_spline d w ;;
    v <- angular_variance_with (interp_eval s) (energy_out_sp s (pT p)) p t c order ;;
    Ok (v, w).
  Definition angular_straggling_b p t c (w : world F) : outcome (F * world F) :=
    ' (v, w) <- angular_variance_b p t c 0 w ;; Ok (fsqrt v, w).
  Definition angular_straggling_from_E_b p (Tout : F) t c (w : world F) : outcome (F * world F) :=
    ' (d, w) <- lookup_b p t c w ;;
    ' (s, w) <- get_range_spline d w ;;
    r1 <- interp_eval s (pT p) ;;
    r2 <- interp_eval s Tout ;;
    angular_straggling_b p (set_thickness t (r1 - r2)) c w.

  (** catima.cpp:195-201 *)
  Definition energy_straggling_from_E_b p (T Tout : F) t c (w : world F) : outcome (F * world F) :=
    ' (d, w) <- lookup_b p t c w ;;
    ' (rs, w) <- get_range_spline d w ;;
    ' (rss, w) <- get_range_straggling_spline d w ;;
    dr <- interp_deriv rs Tout ;;
    let dEdxo := pA p / dr in
    v1 <- interp_eval rss T ;;
    v2 <- interp_eval rss Tout ;;
    Ok (dEdxo * fsqrt (v1 - v2) / pA p, w).

  (** catima.cpp:228-233, 235-252 *)
  Definition energy_out_b p t c (w : world F) : outcome (F * world F) :=
    ' (d, w) <- lookup_b p t c w ;;
    ' (s, w) <- get_range_spline d w ;;
    e <- energy_out_sp s (pT p) (m_th t) ;; Ok (e, w).
  Definition energy_out_v_b p (T : list F) t c (w : world F) : outcome (list F * world F) :=
    ' (d, w) <- lookup_b p t c w ;;
    ' (s, w) <- get_range_spline d w ;;
    l <- omapM (fun e => if e <? Ezero then Ok (lit 0.0)
                         else energy_out_sp s e (m_th t)) T ;;
    Ok (l, w).

  (** reactions.cpp:18-57 *)
  Definition nonreaction_rate_b p t c (w : world F) : outcome (F * world F) :=
    if pT p <? emin_reaction then Ok (lit (-1.0), w)
    else if m_th t <=? lit 0.0 then Ok (lit 1.0, w)
    else
      ap <- cast (flround (pA p)) ;;
      zp <- cast (flround (pZ p)) ;;
      ' (d, w) <- lookup_b p t c w ;;
      ' (s, w) <- get_range_spline d w ;;
      r <- nonreaction_core (energy_out_sp s (pT p)) ap zp t ;;
      Ok (r, w).

  (** catima.cpp:309-334: the two fields that THIN_TARGET_APPROXIMATION is about *)
  Definition sigma_E_b (p : Projectile F) (rss : option (spline F)) (T Eout dEdxo : F) : outcome F :=
    if thin_approximation b then sigma_E_of p rss T Eout dEdxo
    else
      v1 <- interp_eval rss T ;;
      v2 <- interp_eval rss Eout ;;
      Ok (dEdxo * fsqrt (v1 - v2) / pA p).
  Definition sigma_a_b (avs : option (spline F)) (T Eout : F) : outcome F :=
    if thin_approximation b then sigma_a_of avs T Eout
    else
      v1 <- interp_eval avs T ;;
      v2 <- interp_eval avs Eout ;;
      Ok (fsqrt (v1 - v2)).

  (** catima.cpp:271-356 *)
  Definition calculate_b (p : Projectile F) (t : Material F) (c : Config F) (w : world F) : outcome (Result F * world F) :=
    let T := pT p in
    if (T <? Ezero) && (T <? Ezero - numeric_epsilon) then Ok (Result0, w)
    else
      ' (d, w) <- lookup_b p t c w ;;
      let use_angular_spline := (c_scat c =? sc_atima)%Z in
      ' (rs, w) <- get_range_spline d w ;;
      ' (rss, w) <- get_range_straggling_spline d w ;;
      rg <- interp_eval rs T ;;
      dr <- interp_deriv rs T ;;
      let dEdxi := pA p / dr in
      sv <- interp_eval rss T ;;
      let sigma_r := fsqrt sv in
      if m_th t =? lit 0 then
        Ok (mkResult T T (lit 0.0) rg dEdxi dEdxi (lit 0.0) (lit 0.0) sigma_r
                     (lit 0.0) (lit 0.0) (lit 0.0) (lit 1.0), w)
      else
        Eout <- energy_out_sp rs T (m_th t) ;;
        let Eloss := (T - Eout) * pA p in
        ' (dEdxo, sigma_E, sigma_a, tof, w) <-
          (if Eout <? Ezero
           then Ok (lit 0.0, lit 0.0, lit 0.0, lit 0.0, w)
           else
             ' (avs, w) <- get_angular_variance_spline d w ;;
             do_ <- interp_deriv rs Eout ;;
             let dEdxo := pA p / do_ in
             sigma_E <- sigma_E_b p rss T Eout dEdxo ;;
             sa <- (if use_angular_spline then sigma_a_b avs T Eout else Ok (lit 0.0)) ;;
             ' (sa, w) <- (if negb use_angular_spline && (m_th t <? rg)
                           then angular_straggling_b p t c w else Ok (sa, w)) ;;
             tof <- calculate_tof_from_E p Eout t (w_default w) ;;
             Ok (dEdxo, sigma_E, sa, tof, w)) ;;
        ' (vx, w) <- angular_variance_b p t c 2 w ;;
        ' (cov, w) <- angular_variance_b p t c 1 w ;;
        ' (sp, w) <- (if reactions b then nonreaction_rate_b p t c w else Ok (lit 1.0, w)) ;;
        Ok (mkResult T Eout Eloss rg dEdxi dEdxo sigma_E sigma_a sigma_r (fsqrt vx) cov tof sp, w).

  (** catima.cpp:358-396 *)
  Definition layer_update_b (m : Material F) (r tot : Result F) : Result F :=
    let u := layer_update m r tot in
    if reactions b then u
    else mkResult (r_Ein u) (r_Eout u) (r_Eloss u) (r_range u) (r_dEdxi u) (r_dEdxo u) (r_sigma_E u)
                  (r_sigma_a u) (r_sigma_r u) (r_sigma_x u) (r_cov u) (r_tof u) (r_sp tot).
  Fixpoint layers_loop_b (p : Projectile F) (c : Config F) (layers : list (Material F))
           (e : F) (tot : Result F) (w : world F)
    : outcome (list (Result F) * F * Result F * world F) :=
    match layers with
    | [] => Ok ([], e, tot, w)
    | m :: layers' =>
        ' (r, w) <- calculate_b (at_T p e) m c w ;;
        ' (rs, e, tot, w) <- layers_loop_b p c layers' (r_Eout r) (layer_update_b m r tot) w ;;
        Ok (r :: rs, e, tot, w)
    end.
  Definition calculate_layers_b (p : Projectile F) (ps : Phasespace F) (layers : Layers F)
             (c : Config F) (w : world F) : outcome (MultiResult F * world F) :=
    ' (rs, e, tot, w) <- layers_loop_b p c layers (pT p) (total0 p ps) w ;;
    Ok (mkMulti rs (total_finish e tot), w).

  (** catima.cpp:455-471 *)
  Definition w_magnification_b p (Ein : F) t c (w : world F) : outcome ((F * F) * world F) :=
    if (m_rho t <=? lit 0.0) || (m_th t <=? lit 0) then Ok ((lit 1.0, lit 1.0), w)
    else
      let e0 := lit 0.99 * Ein in
      let e1 := Ein in
      let e2 := lit 1.01 * Ein in
      ' (l, w) <- energy_out_v_b p [e0; e1; e2] t c w ;;
      r0 <- aget l 0 ;; r1 <- aget l 1 ;; r2 <- aget l 2 ;;
      if (lit 0.0 <? r0) && (lit 0.0 <? r1) && (lit 0.0 <? r2) then
        let P x := p_from_T x (pA p) in
        Ok ((e1 * (r2 - r0) / (r1 * (e2 - e0)),
             P e1 * (P r2 - P r0) / (P r1 * (P e2 - P e0))), w)
      else Ok ((lit 0.0, lit 0.0), w).

  (** one call of a program, as History.exec *)
  Definition exec_b (q : call F) (w : world F) : outcome (list F * world F) :=
    match q with
    | CRange p t c => one (range_b p t c w)
    | CDedx p t c => one (dedx_from_range_b p t c w)
    | CDedxV p T t c => dedx_from_range_v_b p T t c w
    | CRangeStraggling p T t c => one (range_straggling_b p T t c w)
    | CRangeVariance p T t c => one (range_variance_b p T t c w)
    | CDomega2de p T t c => one (domega2de_b p T t c w)
    | CAngularVariance p t c o => one (angular_variance_b p t c o w)
    | CAngularStraggling p t c => one (angular_straggling_b p t c w)
    | CAngularStragglingE p Tout t c => one (angular_straggling_from_E_b p Tout t c w)
    | CEnergyStragglingE p T Tout t c => one (energy_straggling_from_E_b p T Tout t c w)
    | CEnergyOut p t c => one (energy_out_b p t c w)
    | CEnergyOutV p T t c => energy_out_v_b p T t c w
    | CNonreaction p t c => one (nonreaction_rate_b p t c w)
    | CMagnification p Ein t c =>
        omap (fun r => ([fst (fst r); snd (fst r)], snd r)) (w_magnification_b p Ein t c w)
    | CCalculate p t c => omap (fun r => (result_list (fst r), snd r)) (calculate_b p t c w)
    | CLayers p ps ls c =>
        omap (fun r => (concat (map result_list (mr_results (fst r)))
                          ++ result_list (mr_total (fst r)), snd r))
             (calculate_layers_b p ps ls c w)
    | CReset => Ok ([], data_reset w)
    | CSetDefault c => Ok ([], mkW (w_slots w) (w_index w) c (w_junk w))
    end.
  Definition exec_all_b (h : list (call F)) (w : world F) : outcome (world F) :=
    ofold (fun w q => omap snd (exec_b q w)) h w.
End Builds.
