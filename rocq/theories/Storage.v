(** * Stopping power, table construction and the table cache

    src/catima.cpp:31-60, 113-132, 404-445; include/catima/storage.h:162-282; src/storage.cpp *)
From Coq Require Import ZArith List Bool.
From Verif Require Import Num Structures EnergyTable Spline Integrator Calculations.
Import ListNotations.

Notation "' p <- e ;; f" := (bind e (fun x => match x with p => f end))
  (at level 61, p pattern, e at next level, right associativity).

Section Storage.
  Context {F : Type} {N : Num F}.
  Local Open Scope num_scope.

  (** catima.cpp:31-49 *)
  Definition dedx (p : Projectile F) (mat : Material F) (c : Config F) : outcome F :=
    if pT p <=? lit 0 then Ok (lit 0.0)
    else
      let sum := lit 0 + dedx_n p mat in
      se <- (if pT p <=? lit 10 then sezi_dedx_e p mat c
             else if (lit 10 <? pT p) && (pT p <? lit 30) then
               let factor := lit 0.05 * (pT p - lit 10.0) in
               s <- sezi_dedx_e p mat c ;;
               b <- bethek_dedx_e p mat c ;;
               Ok ((lit 1 - factor) * s + factor * b)
             else bethek_dedx_e p mat c) ;;
      Ok (sum + se).

  (** catima.cpp:51-60 *)
  Definition domega2dx (p : Projectile F) (mat : Material F) (c : Config F) : outcome F :=
    ofold (fun sum t => v <- dedx_variance p t c ;; Ok (sum + wfrac mat t * v))
          (m_atoms mat) (lit 0).

  (** catima.cpp:115-117, 152-154 *)
  Definition scattering_Es2 (c : Config F) : F :=
    if (c_scat c =? sc_fermi_rossi)%Z then Es_squared
    else if (c_scat c =? sc_dhighland)%Z then Es_squared
    else lit 198.81.

  (** catima.cpp:113-119 *)
  Definition da2dx (p : Projectile F) (mat : Material F) (c : Config F) : outcome F :=
    a <- angular_scattering_power p mat (scattering_Es2 c) ;; Ok (c_sfac c * a).

  (** catima.cpp:130-132 *)
  Definition da2de (p : Projectile F) (mat : Material F) (c : Config F) : outcome F :=
    a <- da2dx p mat c ;; d <- dedx p mat c ;; Ok (a / d).

  (** ** Tables *)

  (** The running sum table[i] = A * integral(i-1, i) + table[i-1] over consecutive grid values *)
  Fixpoint accumulate (step : F -> F -> outcome F) (lo : F) (rest : list F) (prev : F)
    : outcome (list F) :=
    match rest with
    | [] => Ok []
    | hi :: rest' =>
        r <- step lo hi ;;
        let v := r + prev in
        l <- accumulate step hi rest' v ;;
        Ok (v :: l)
    end.
  Definition table (step : F -> F -> outcome F) (grid : list F) : outcome (list F) :=
    match grid with
    | [] => Ok []
    | g0 :: rest => l <- accumulate step g0 rest (lit 0.0) ;; Ok (lit 0.0 :: l)
    end.

  (** integrands, catima.cpp:409-417.  The lambdas set p.T of a local copy before every use. *)
  Definition fdedx (p : Projectile F) (t : Material F) (c : Config F) (x : F) : outcome F :=
    d <- dedx (at_T p x) t c ;; Ok (lit 1.0 / d).
  Definition fomega (p : Projectile F) (t : Material F) (c : Config F) (x : F) : outcome F :=
    o <- domega2dx (at_T p x) t c ;; d <- dedx (at_T p x) t c ;; Ok (o / power d (lit 3)).
  Definition ftheta (p : Projectile F) (t : Material F) (c : Config F) (x : F) : outcome F :=
    da2de (at_T p x) t c.

  Definition scaled_integral (A : F) (f : F -> outcome F) (lo hi : F) : outcome F :=
    r <- integrate f lo hi ;; Ok (A * r).

  Definition range_table p t c : outcome (list F) :=
    table (scaled_integral (pA p) (fdedx p t c)) (et_values energy_table).
  Definition straggling_table p t c : outcome (list F) :=
    table (scaled_integral (pA p) (fomega p t c)) (et_values energy_table).
  Definition angular_table p t c : outcome (list F) :=
    table (scaled_integral (pA p) (ftheta p t c)) (et_values energy_table).

  (** storage.h:205-226.  None is the value-initialised Interpolator (null pointers). *)
  Record DataPoint := mkDP {
    dp_p : Projectile F; dp_m : Material F; dp_c : Config F;
    dp_range : list F; dp_rs : list F; dp_av : list F;
    dp_range_spline : option (spline F);
    dp_rs_spline : option (spline F);
    dp_av_spline : option (spline F)
  }.
  Definition DataPoint0 : DataPoint :=
    mkDP Projectile0 Material0 Config0 [] [] [] None None None.

  (** catima.cpp:404-445.  The three tables are filled in one loop in the code. *)
  Definition calculate_DataPoint (p : Projectile F) (t : Material F) (c : Config F)
    : outcome DataPoint :=
    r <- range_table p t c ;;
    a <- angular_table p t c ;;
    s <- straggling_table p t c ;;
    Ok (mkDP p t c r s a None None None).

  (** ** The global state: _storage (storage.cpp:21), default_config (catima.cpp:18), and a counter
      of spline constructions that selects the leftovers read from uninitialised stack memory *)
  Record world := mkW {
    w_slots : list DataPoint;
    w_index : nat;               (* distance of the iterator index from begin() *)
    w_default : Config F;
    w_junk : nat
  }.

  (** storage.cpp:102-106 *)
  Definition world0 : world :=
    mkW (repeat DataPoint0 max_storage_data) 0 Config0 0.

  (** storage.h:255: Reset *)
  Definition data_reset (w : world) : world :=
    mkW (repeat DataPoint0 max_storage_data) 0 (w_default w) (w_junk w).

  (** storage.cpp:132: the comparison in Get *)
  Definition key_match (p : Projectile F) (t : Material F) (c : Config F) (e : DataPoint) : bool :=
    proj_eqb (dp_p e) p && mat_eqb (dp_m e) t && config_eqb (dp_c e) c.

  (** storage.cpp:28-35: operator==(DataPoint, DataPoint), used by Add with e == dp *)
  Definition dp_eqb (a b : DataPoint) : bool :=
    mat_eqb (dp_m a) (dp_m b) && proj_eqb (dp_p a) (dp_p b) && config_eqb (dp_c a) (dp_c b).

  (** range-for over storage with return of the first match; the number returned is the position *)
  Fixpoint find_slot (q : DataPoint -> bool) (l : list DataPoint) : option nat :=
    match l with
    | [] => None
    | e :: l' => if q e then Some O else option_map S (find_slot q l')
    end.

  Fixpoint set_slot (l : list DataPoint) (i : nat) (d : DataPoint) : list DataPoint :=
    match l, i with
    | [], _ => []
    | _ :: l', O => d :: l'
    | x :: l', S i' => x :: set_slot l' i' d
    end.

  (** the three Interpolators built from a slot's tables (storage.cpp:119-126) *)
  Definition with_splines (junk : nat -> F * F) (k : nat) (d : DataPoint) : outcome DataPoint :=
    s1 <- make_spline energy_table (dp_range d) (junk k) ;;
    s2 <- make_spline energy_table (dp_rs d) (junk (k + 1)%nat) ;;
    s3 <- make_spline energy_table (dp_av d) (junk (k + 2)%nat) ;;
    Ok (mkDP (dp_p d) (dp_m d) (dp_c d) (dp_range d) (dp_rs d) (dp_av d)
             (Some s1) (Some s2) (Some s3)).

  (** storage.cpp:112-128: Data::Add.  [calc] is calculate_DataPoint. *)
  Definition data_add (junk : nat -> F * F)
             (calc : Projectile F -> Material F -> Config F -> outcome DataPoint)
             (p : Projectile F) (t : Material F) (c : Config F) (w : world) : outcome world :=
    let dp := mkDP p t c [] [] [] None None None in
    match find_slot (fun e => dp_eqb e dp) (w_slots w) with
    | Some _ => Ok w
    | None =>
        let i := if Nat.eqb (w_index w) (length (w_slots w)) then O else w_index w in
        d <- calc p t c ;;
        d <- with_splines junk (w_junk w) d ;;
        if (i <? length (w_slots w))%nat
        then Ok (mkW (set_slot (w_slots w) i d) (S i) (w_default w) (w_junk w + 3))
        else UB OutOfBounds
    end.

  (** storage.cpp:130-139: Data::Get returns a reference, i.e. the position of the slot *)
  Definition data_get (junk : nat -> F * F)
             (calc : Projectile F -> Material F -> Config F -> outcome DataPoint)
             (p : Projectile F) (t : Material F) (c : Config F) (w : world)
    : outcome (nat * world) :=
    match find_slot (key_match p t c) (w_slots w) with
    | Some i => Ok (i, w)
    | None =>
        w' <- data_add junk calc p t c w ;;
        match w_index w' with
        | O => UB OutOfBounds               (* prev(begin()) *)
        | S i => Ok (i, w')
        end
    end.

  (** reading through the reference *)
  Definition slot (w : world) (i : nat) : outcome DataPoint :=
    match nth_error (w_slots w) i with Some d => Ok d | None => UB OutOfBounds end.

  (** Interpolator::eval, derivative (storage.h:169-171); null table pointer when never built *)
  Definition interp_eval (s : option (spline F)) (x : F) : outcome F :=
    match s with Some s => spline_eval s x | None => UB NullDeref end.
  Definition interp_deriv (s : option (spline F)) (x : F) : outcome F :=
    match s with Some s => spline_deriv s x | None => UB NullDeref end.
End Storage.
Arguments DataPoint F : clear implicits.
Arguments world F : clear implicits.
