(** * C interface: src/cwrapper.cpp

    The state is the library's [world] plus catima_defaults.z_effective (a char). *)
From Coq Require Import ZArith List Bool.
From Verif Require Import Num Structures Storage Catima NucData.
Import ListNotations.

Section CWrapper.
  Context {F : Type} {N : Num F}.
  Variable junk : nat -> F * F.
  Local Open Scope num_scope.

  (** cwrapper.cpp:11-25; tz is converted to int where get_material and add_element expect one *)
  Definition make_material (ta tz thickness density : F) : outcome (Material F) :=
    z <- cast (fto_int tz) ;;
    let mat := if lit 200 <? tz then get_material z else add_element Material0 ta z (lit 1.0) in
    let mat := set_thickness (set_density mat density) thickness in
    Ok (if density <=? lit 0.0 then set_density mat (m_rho (get_material z)) else mat).

  (** default_config.z_effective = catima_defaults.z_effective (char to unsigned char);
      default_config.scattering = 255 *)
  Definition select_zeff (cd : Z) (w : world F) : world F :=
    let c := w_default w in
    mkW (w_slots w) (w_index w)
        (mkConfig (cd mod 256)%Z (c_corr c) (c_calc c) (c_low c) (c_scat c) (c_sfac c)) (w_junk w).
  Definition select_scattering (w : world F) : world F :=
    let c := w_default w in
    mkW (w_slots w) (w_index w)
        (mkConfig (c_zeff c) (c_corr c) (c_calc c) (c_low c) sc_atima (c_sfac c)) (w_junk w).

  Definition c_projectile (pa : F) (pz : Z) : Projectile F :=
    Projectile_ pa (ofZ pz) (lit 0) (lit 0).

  (** cwrapper.cpp:27-47.  CatimaResult is the ten fields listed. *)
  Record CatimaResult := mkCR {
    cr_Ein : F; cr_Eout : F; cr_Eloss : F; cr_range : F; cr_dEdxi : F; cr_dEdxo : F;
    cr_sigma_E : F; cr_sigma_a : F; cr_sigma_r : F; cr_tof : F }.
  Definition catima_calculate (cd : Z) (pa : F) (pz : Z) (T ta tz thickness density : F)
             (w : world F) : outcome (CatimaResult * world F) :=
    let w := select_scattering (select_zeff cd w) in
    mat <- make_material ta tz thickness density ;;
    ' (r, w) <- calculate junk (at_T (c_projectile pa pz) T) mat (w_default w) w ;;
    Ok (mkCR (r_Ein r) (r_Eout r) (r_Eloss r) (r_range r) (r_dEdxi r) (r_dEdxo r)
             (r_sigma_E r) (r_sigma_a r) (r_sigma_r r) (r_tof r), w).

  (** cwrapper.cpp:49-55 *)
  Definition catima_Eout (cd : Z) (pa : F) (pz : Z) (T ta tz thickness density : F) (w : world F)
    : outcome (F * world F) :=
    let w := select_scattering (select_zeff cd w) in
    mat <- make_material ta tz thickness density ;;
    energy_out junk (at_T (c_projectile pa pz) T) mat (w_default w) w.

  (** cwrapper.cpp:57-63: T is not used *)
  Definition catima_range (cd : Z) (pa : F) (pz : Z) (T ta tz : F) (w : world F)
    : outcome (F * world F) :=
    let w := select_scattering (select_zeff cd w) in
    mat <- make_material ta tz (lit 0) (lit (-1)) ;;
    range junk (c_projectile pa pz) mat (w_default w) w.

  (** cwrapper.cpp:65-71 *)
  Definition catima_range_straggling (cd : Z) (pa : F) (pz : Z) (T ta tz : F) (w : world F)
    : outcome (F * world F) :=
    let w := select_scattering (select_zeff cd w) in
    mat <- make_material ta tz (lit 0) (lit (-1)) ;;
    range_straggling junk (c_projectile pa pz) T mat (w_default w) w.

  (** cwrapper.cpp:73-79 *)
  Definition catima_angular_straggling_from_E (cd : Z) (pa : F) (pz : Z) (Tin Tout ta tz : F)
             (w : world F) : outcome (F * world F) :=
    let w := select_scattering w in
    mat <- make_material ta tz (lit 0) (lit (-1)) ;;
    angular_straggling_from_E junk (at_T (c_projectile pa pz) Tin) Tout mat (w_default w) w.

  (** cwrapper.cpp:81-86 *)
  Definition catima_energy_straggling_from_E (cd : Z) (pa : F) (pz : Z) (Tin Tout ta tz : F)
             (w : world F) : outcome (F * world F) :=
    let w := select_scattering w in
    mat <- make_material ta tz (lit 0) (lit (-1)) ;;
    energy_straggling_from_E junk (c_projectile pa pz) Tin Tout mat (w_default w) w.

  (** cwrapper.cpp:88 *)
  Definition atomic_weight (i : Z) : F := element_atomic_weight i.

  (** cwrapper.cpp:90-95 *)
  Definition catima_nonreaction_rate (cd : Z) (pa : F) (pz : Z) (T ta tz thickness : F)
             (w : world F) : outcome (F * world F) :=
    mat <- make_material ta tz thickness (lit (-1)) ;;
    nonreaction_rate junk (at_T (c_projectile pa pz) T) mat (w_default w) w.
End CWrapper.
Arguments CatimaResult F : clear implicits.
