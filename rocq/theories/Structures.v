(** * Constants, configuration and data structures

    include/catima/constants.h, config.h, structures.h; src/structures.cpp, nucdata.{h,cpp} *)
From Coq Require Import ZArith List Bool.
From Verif Require Import Num DataElements.
Import ListNotations.

(** max_datapoints, max_storage_data: constants.h:11-12 *)
Definition max_datapoints : Z := 600.
Definition max_storage_data : nat := 60.

Section Constants.
  Context {F : Type} {N : Num F}.
  Local Open Scope num_scope.

  (** constants.h:8-39.  numeric_epsilon is 10*DBL_EPSILON = 10*2^-52, a compile-time product. *)
  Definition Ezero : F := lit 1e-3.
  Definition logEmin : F := lit (-3).
  Definition logEmax : F := lit 7.0.
  Definition numeric_epsilon : F := lit 10 * (lit 1 / lit 4503599627370496).
  Definition Eout_th_epsilon : F := lit 1e-5.
  Definition thin_target_limit : F := lit 1 - lit 1e-3.
  Definition emin_reaction : F := lit 30.0.
  Definition PI_ : F := lit 3.1415926535897932384626433832795.
  Definition LN10_ : F := lit 2.30258509299404568401799145468.
  Definition Avogadro : F := lit 6.022140857.
  Definition electron_mass : F := lit 0.510998928.
  Definition atomic_mass_unit : F := lit 931.4940954.
  Definition fine_structure : F := lit 1 / lit 137.035999139.
  Definition fine_structure_inverted : F := lit 1 / fine_structure.
  Definition c_light : F := lit 299.792458.
  Definition bohr_velocity : F := lit 2.19 / c_light.
  Definition hbar : F := lit 6.582119514.
  Definition Es_squared : F :=
    lit 2.0 * PI_ * fine_structure_inverted * electron_mass * electron_mass.
  Definition dedx_constant : F := lit 0.3070749187.
  Definition domega2dx_constant : F := dedx_constant * electron_mass.
End Constants.

(** ** config.h:11-73.  The unsigned char members are kept as integers. *)
Definition z_none : Z := 0.
Definition z_pierce_blann : Z := 1.
Definition z_anthony_landorf : Z := 2.
Definition z_hubert : Z := 3.
Definition z_winger : Z := 4.
Definition z_schiwietz : Z := 5.
Definition z_global : Z := 6.
Definition z_atima14 : Z := 7.

Definition no_barkas : Z := 1.
Definition no_lindhard : Z := 2.
Definition no_shell_correction : Z := 4.
Definition no_highenergy : Z := 8.

Definition omega_atima : Z := 0.
Definition omega_bohr : Z := 1.

Definition srim_85 : Z := 0.
Definition srim_95 : Z := 1.

Definition sc_fermi_rossi : Z := 0.
Definition sc_dhighland : Z := 1.
Definition sc_gottschalk : Z := 2.
Definition sc_atima : Z := 255.

Record Config (F : Type) := mkConfig {
  c_zeff : Z;
  c_corr : Z;
  c_calc : Z;
  c_low : Z;
  c_scat : Z;
  c_sfac : F
}.
Arguments mkConfig {F}.
Arguments c_zeff {F}. Arguments c_corr {F}. Arguments c_calc {F}.
Arguments c_low {F}. Arguments c_scat {F}. Arguments c_sfac {F}.

(** config.h:61-73, default member initialisers without GLOBAL *)
Definition Config0 {F} {N : Num F} : Config F :=
  mkConfig z_pierce_blann 0 1 srim_85 sc_atima (lit 1.0).

(** [corrections & flag] as a condition, config.h:25-30 *)
Definition corr_has {F} (c : Config F) (flag : Z) : bool :=
  negb (Z.eqb (Z.land (c_corr c) flag) 0).

(** ** structures.h:36-61 *)
Record Projectile (F : Type) := mkProj { pA : F; pZ : F; pQ : F; pT : F }.
Arguments mkProj {F}. Arguments pA {F}. Arguments pZ {F}. Arguments pQ {F}. Arguments pT {F}.

Record Target (F : Type) := mkTarget { tA : F; tZ : Z; tstn : F }.
Arguments mkTarget {F}. Arguments tA {F}. Arguments tZ {F}. Arguments tstn {F}.

(** structures.h:69-76 *)
Record Material (F : Type) := mkMat {
  m_rho : F; m_th : F; m_M : F; m_I : F; m_atoms : list (Target F)
}.
Arguments mkMat {F}. Arguments m_rho {F}. Arguments m_th {F}. Arguments m_M {F}.
Arguments m_I {F}. Arguments m_atoms {F}.

Section Structures.
  Context {F : Type} {N : Num F}.
  Local Open Scope num_scope.

  (** structures.h:47: Projectile(a,z,q=0,t=0) *)
  Definition Projectile_ (a z q t : F) : Projectile F :=
    mkProj a z (if q =? lit 0 then z else q) t.
  (** structures.h:49: default constructor *)
  Definition Projectile0 : Projectile F := mkProj (lit 0) (lit 0) (lit 0) (lit 0).
  (** structures.h:48: operator()(double e) *)
  Definition at_T (p : Projectile F) (e : F) : Projectile F := mkProj (pA p) (pZ p) (pQ p) e.

  (** nucdata.h:30-36.  The condition keeps the index inside the arrays, so the checked
      access cannot fail (theorem in PropData.v); [nth] with default is used. *)
  Definition element_atomic_weight (z : Z) : F :=
    if ((0 <? z) && (z <? 110))%Z
    then lit (nth (Z.to_nat z) element_atomic_weights 0%dec) else lit 0.0.
  Definition element_density (z : Z) : F :=
    if ((0 <? z) && (z <? 99))%Z
    then lit (nth (Z.to_nat z) element_densities 0%dec) else lit 0.0.
  (** data_ionisation_potential.h:147-152 *)
  Definition ipot (z : Z) : F :=
    if ((z <? 1) || (z >? 120))%Z then lit 0.0
    else lit (nth (Z.to_nat z) ionisation_potentials_z 0%dec).

  (** structures.h:70-78: Material() *)
  Definition Material0 : Material F := mkMat (lit 1e-5) (lit 0) (lit 0) (lit 0) [].

  (** structures.cpp:50-54: add_element *)
  Definition add_element (m : Material F) (a : F) (z : Z) (stn : F) : Material F :=
    let a' := if lit 0 <? a then a else element_atomic_weight z in
    mkMat (m_rho m) (m_th m) (m_M m + stn * a') (m_I m)
          (m_atoms m ++ [mkTarget a' z stn]).

  (** structures.cpp:56-64: calculate *)
  Definition material_calculate (m : Material F) : Material F :=
    if forallb (fun t => tstn t <? lit 1.0) (m_atoms m)
    then let sum := fold_left (fun s t => s + tstn t / tA t) (m_atoms m) (lit 0) in
         mkMat (m_rho m) (m_th m) (lit 1.0 / sum) (m_I m) (m_atoms m)
    else m.

  (** structures.cpp:31-44: Material(list, density, ipot, mass).  The middle component of a list
      element is a double converted to int; it is an integer in the model. *)
  Definition Material_list (l : list (F * Z * F)) (rho ip mass : F) : Material F :=
    let m := fold_left (fun m e => match e with (a, z, s) => add_element m a z s end)
                       l (mkMat rho (lit 0) (lit 0) ip []) in
    if negb (mass =? lit 0.0)
    then mkMat (m_rho m) (m_th m) mass (m_I m) (m_atoms m)
    else material_calculate m.

  (** structures.cpp:46-48: Material(a, z, rho, th, ipot) *)
  Definition Material_elem (a : F) (z : Z) (rho th ip : F) : Material F :=
    add_element (mkMat rho th (lit 0) ip []) a z (lit 1.0).

  (** structures.h:122-199 *)
  Definition ncomponents (m : Material F) : Z := Z.of_nat (length (m_atoms m)).
  Definition wfrac (m : Material F) (t : Target F) : F :=
    if tstn t <? lit 1.0 then tstn t else tstn t * tA t / m_M m.
  Definition mfrac (m : Material F) (t : Target F) : F :=
    if tstn t <? lit 1.0 then tstn t * m_M m / tA t else tstn t.
  Definition get_element (m : Material F) (i : Z) : outcome (Target F) := aget (m_atoms m) i.
  Definition weight_fraction (m : Material F) (i : Z) : outcome F :=
    t <- aget (m_atoms m) i ;; Ok (wfrac m t).
  Definition molar_fraction (m : Material F) (i : Z) : outcome F :=
    t <- aget (m_atoms m) i ;; Ok (mfrac m t).
  Definition set_M (m : Material F) (v : F) := mkMat (m_rho m) (m_th m) v (m_I m) (m_atoms m).
  Definition set_density (m : Material F) (v : F) := mkMat v (m_th m) (m_M m) (m_I m) (m_atoms m).
  Definition set_thickness (m : Material F) (v : F) := mkMat (m_rho m) v (m_M m) (m_I m) (m_atoms m).
  Definition set_thickness_cm (m : Material F) (l : F) :=
    mkMat (m_rho m) (m_rho m * l) (m_M m) (m_I m) (m_atoms m).
  Definition set_I (m : Material F) (v : F) := mkMat (m_rho m) (m_th m) (m_M m) v (m_atoms m).
  Definition thickness_cm (m : Material F) : F := m_th m / m_rho m.

  (** structures.h:200-222.  [i >= atoms.size()] compares int with size_t: a negative i becomes
      i + 2^64, which exceeds every possible size. *)
  Definition index_ge_size (i : Z) (n : nat) : bool :=
    ((if i <? 0 then i + 2 ^ 64 else i) >=? Z.of_nat n)%Z.
  Definition number_density (m : Material F) : F := Avogadro * m_rho m / m_M m.
  Definition number_density_i (m : Material F) (i : Z) : outcome F :=
    if index_ge_size i (length (m_atoms m)) then Ok (lit 0.0)
    else x <- molar_fraction m i ;; Ok (number_density m * x).
  Definition number_density_cm2 (m : Material F) : F := Avogadro * m_th m / m_M m.
  Definition number_density_cm2_i (m : Material F) (i : Z) : outcome F :=
    if index_ge_size i (length (m_atoms m)) then Ok (lit 0.0)
    else x <- molar_fraction m i ;; Ok (number_density_cm2 m * x).

  (** structures.cpp:9-15 *)
  Definition proj_eqb (a b : Projectile F) : bool :=
    (pA a =? pA b) && (pZ a =? pZ b) && (pQ a =? pQ b).

  (** structures.cpp:21-25: loop over the constituents, both lists having the same length *)
  Fixpoint atoms_eqb (l1 l2 : list (Target F)) : bool :=
    match l1, l2 with
    | a :: l1', b :: l2' =>
        if negb (tstn a =? tstn b) then false
        else if negb (tA a =? tA b) then false
        else if negb (Z.eqb (tZ a) (tZ b)) then false
        else atoms_eqb l1' l2'
    | _, _ => true
    end.

  (** structures.cpp:17-28 *)
  Definition mat_eqb (a b : Material F) : bool :=
    if lit 1e-6 <? fabs (m_rho a - m_rho b) then false
    else if negb (Z.eqb (ncomponents a) (ncomponents b)) then false
    else if negb (m_I a =? m_I b) then false
    else if negb (atoms_eqb (m_atoms a) (m_atoms b)) then false
    else if negb (m_M a =? m_M b) then false
    else true.

  (** catima.cpp:20-28 *)
  Definition config_eqb (a b : Config F) : bool :=
    if negb (Z.eqb (c_scat a) (c_scat b)) then false
    else if negb (Z.eqb (c_zeff a) (c_zeff b)) then false
    else if negb (Z.eqb (c_corr a) (c_corr b)) then false
    else if negb (Z.eqb (c_calc a) (c_calc b)) then false
    else if negb (Z.eqb (c_low a) (c_low b)) then false
    else if lit 1e-3 <? fabs (c_sfac a - c_sfac b) then false
    else true.

  (** structures.h:225-243: Result with REACTIONS *)
  Record Result := mkResult {
    r_Ein : F; r_Eout : F; r_Eloss : F; r_range : F; r_dEdxi : F; r_dEdxo : F;
    r_sigma_E : F; r_sigma_a : F; r_sigma_r : F; r_sigma_x : F; r_cov : F;
    r_tof : F; r_sp : F
  }.
  Definition Result0 : Result :=
    mkResult (lit 0.0) (lit 0.0) (lit 0.0) (lit 0.0) (lit 0.0) (lit 0.0) (lit 0.0)
             (lit 0.0) (lit 0.0) (lit 0.0) (lit 0.0) (lit 0.0) (lit 1.0).

  (** structures.h:245-258 *)
  Record Phasespace := mkPS { ps_sigma_x : F; ps_sigma_a : F; ps_cov_x : F }.
  Definition Phasespace0 : Phasespace := mkPS (lit 0.0) (lit 0.0) (lit 0.0).
  Record MultiResult := mkMulti { mr_results : list Result; mr_total : Result }.

  (** ** Layers, structures.h:267-310, structures.cpp:66-112.  A Layers object is its vector. *)
  Definition Layers := list (Material F).
  Definition layers_add (l : Layers) (m : Material F) : Layers := l ++ [m].
  (** add(const Layers&) with distinct objects: push_back of each element in order *)
  Definition layers_append (l other : Layers) : Layers := fold_left layers_add other l.
  Definition layers_num (l : Layers) : Z := Z.of_nat (length l).
  Definition layers_thickness (l : Layers) : F :=
    fold_left (fun s m => s + m_th m) l (lit 0).
  Definition layers_thickness_cm (l : Layers) : F :=
    fold_left (fun s m => s + thickness_cm m) l (lit 0).
  Definition layers_plus (a b : Layers) : Layers :=
    fold_left layers_add b (fold_left layers_add a []).
  Definition layers_plus_mat (a : Layers) (m : Material F) : Layers :=
    layers_add (fold_left layers_add a []) m.
End Structures.

Arguments Result F : clear implicits.
Arguments Phasespace F : clear implicits.
Arguments MultiResult F : clear implicits.
Arguments Layers F : clear implicits.

(** add(const Layers& l) on objects in a store: [objs] maps object numbers to their vectors.
    When source and destination are the same non-empty object, the range-for iterates over the
    vector that push_back extends; the first push_back invalidates its iterators
    (structures.cpp:70-74). *)
Definition layers_add_obj {F} (objs : nat -> Layers F) (dst src : nat)
  : outcome (nat -> Layers F) :=
  if Nat.eqb dst src
  then match objs src with
       | [] => Ok objs
       | _ => UB IterInvalidated
       end
  else Ok (fun k => if Nat.eqb k dst then layers_append (objs dst) (objs src) else objs k).
