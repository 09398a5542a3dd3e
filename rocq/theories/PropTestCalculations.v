(** * C64: the unit tests of tests/test_calculations.cpp, tests/test_reaction.cpp and
      tests/test_storage.cpp that build no tables hold of the model in double precision *)
From Coq Require Import ZArith List Bool Floats.
From Verif Require Import Num NumF Structures EnergyTable Calculations NucData Reactions Storage Catima
  LibmZ TestCases.
Import ListNotations.
Local Open Scope num_scope.

Notation L := lit (only parsing).
Definition proj (a z q t : dec) : Projectile float := Projectile_ (L a) (L z) (L q) (L t).
Definition with_zeff (z : Z) : Config float :=
  mkConfig z (c_corr Config0) (c_calc Config0) (c_low Config0) (c_scat Config0) (c_sfac Config0).

(** test_calculations.cpp:11-31 *)
Theorem C64_nuclear :
  let carbon := mkTarget (L 12.0107) 6 (L 1.0) in
  let p := proj 4.00151 2 2 1 in
  let at_MeV e := dedx_n_t (at_T p (L e / pA p)) carbon in
  passes [ near (at_MeV 0.1%dec) (L 14.27) (L 1); near (at_MeV 1%dec) (L 2.161) (L 0.1);
           near (at_MeV 10%dec) (L 0.2874) (L 0.01); near (at_MeV 100%dec) (L 0.03455) (L 0.001) ].
Proof. vm_compute. repeat constructor. Qed.
Print Assumptions C64_nuclear.

(** test_calculations.cpp:33-52 *)
Theorem C64_srim :
  let se m t := on (sezi_dedx_e (proj 1 1 1 t) m Config0) in
  let he := get_material 2 in
  let carbon := get_material 6 in
  passes [ se he 1%dec (fun v => near v (L 283) (L 1)); se he 10%dec (fun v => near v (L 45.6) (L 1));
           se he 30%dec (fun v => near v (L 18.38) (L 1));
           se carbon 1%dec (fun v => near v (L 229.5) (L 1)); se carbon 10%dec (fun v => near v (L 40.8) (L 1));
           se carbon 30%dec (fun v => near v (L 16.8) (L 1)) ].
Proof. vm_compute. repeat constructor. Qed.
Print Assumptions C64_srim.

(** test_calculations.cpp:53-71.  The carbon projectile keeps the charge of the helium one. *)
Theorem C64_low_energy :
  let carbon := get_material 6 in
  let s p m := on (sezi_dedx_e p carbon Config0) (fun v => near_R (v + dedx_n p carbon) (L m) (L 0.0001)) in
  let he t := proj 4 2 2 t in
  let c t := mkProj (L 12) (L 6) (L 2) (L t) in
  passes [ s (he 1%dec) 922.06%dec; s (he 3%dec) 433.09%dec; s (c 1%dec) 5792.52%dec; s (c 9.9%dec) 1485.36%dec ].
Proof. vm_compute. repeat constructor. Qed.
Print Assumptions C64_low_energy.

(** test_calculations.cpp:111-112: the loop at the end of the straggling test *)
Theorem C64_straggling_nonnegative :
  let x e := on (precalculated_lindhard_X (proj 238 92 92 e)) (fun v => PrimFloat.leb (L 0.0) v) in
  passes (map x [2000; 20000; 200000; 9000000; 50000000]%dec).
Proof. vm_compute. repeat constructor. Qed.
Print Assumptions C64_straggling_nonnegative.

(** test_calculations.cpp:114-124 *)
Theorem C64_ultrarelativistic :
  let t := mkTarget (L 27) 13 (L 1.0) in
  let p e := proj 238 92 0 e in
  passes [ near (pair_production (p 1e3%dec) t) (L 0.0) (L 1e-3);
           near (bremsstrahlung (p 1e3%dec) t) (L 0.0) (L 1e-3);
           near (pair_production (p 1e6%dec) t) (L 1900) (L 300);
           near (bremsstrahlung (p 1e6%dec) t) (L 170) (L 20);
           near (pair_production (p 7e6%dec) t) (L 19000) (L 5000);
           near (bremsstrahlung (p 7e6%dec) t) (L 6000) (L 500) ].
Proof. vm_compute. repeat constructor. Qed.
Print Assumptions C64_ultrarelativistic.

(** test_calculations.cpp:125-135 *)
Theorem C64_compound :
  let water := Material_list [(L 1.00794, 1%Z, L 2); (L 15.9994, 8%Z, L 1)] (L 1e-5) (L 0.0) (L 0.0) in
  let d e m := on (dedx (proj 1 1 1 e) water Config0) (fun v => near_R v (L m) (L 5e-3)) in
  passes [ d 1000%dec 2.23%dec; d 500%dec 2.76%dec; d 9%dec 51.17%dec ].
Proof. vm_compute. repeat constructor. Qed.
Print Assumptions C64_compound.

(** test_calculations.cpp:187-196, and the radiation length of water, line 499 *)
Theorem C64_lengths :
  let ratio z m eps := on (radiation_length (get_material z)) (fun x0 =>
    on (scattering_length (get_material z)) (fun xs => near (xs / x0) (L m) (L eps))) in
  passes [ ratio 4%Z 1.4%dec 0.1%dec; ratio 82%Z 1.04%dec 0.04%dec;
           on (radiation_length (get_material 206)) (fun x => near x (L 36.1) (L 0.2)) ].
Proof. vm_compute. repeat constructor. Qed.
Print Assumptions C64_lengths.

(** test_calculations.cpp:501-525: the part compiled without GLOBAL *)
Theorem C64_z_eff :
  let t := mkTarget (L 0) 13 (L 1.0) in
  let p e := proj 238 92 0 e in
  let b := beta_from_T (L 5000) in
  passes [
    near (z_eff_Pierce_Blann (L 92) b) (L 91.8) (L 0.2);
    same (z_eff_Pierce_Blann (L 92) b) (z_effective (p 5000%dec) t (with_zeff z_pierce_blann));
    near (z_eff_Winger (L 92) (L 0.99) (L 6)) (L 91.8) (L 0.5);
    near (z_eff_Winger (L 92) b (L 13)) (L 91.8) (L 0.2);
    same (z_eff_Winger (L 92) b (L 13)) (z_effective (p 5000%dec) t (with_zeff z_winger));
    near (z_eff_Schiwietz (L 92) (L 0.99) (L 6)) (L 91.8) (L 0.5);
    same (z_eff_Schiwietz (L 92) b (L 13)) (z_effective (p 5000%dec) t (with_zeff z_schiwietz));
    near (z_eff_Hubert (L 92) (L 1900) (L 13)) (L 91.88) (L 0.1);
    same (z_eff_Hubert (L 92) (L 1900) (L 13)) (z_effective (p 1900%dec) t (with_zeff z_hubert)) ].
Proof. vm_compute. repeat constructor. Qed.
Print Assumptions C64_z_eff.

(** test_calculations.cpp:571-575 *)
Theorem C64_constants :
  passes [
    near (L 0.1 * hbar * c_light / atomic_mass_unit) (L 0.21183) (L 0.0001);
    near_R (L 16.0 * dedx_constant * electron_mass * fine_structure / (atomic_mass_unit * L 3.0 * L 4.0 * PI_))
      (L 5.21721169334564e-7) (L 1e-3) ].
Proof. vm_compute. repeat constructor. Qed.
Print Assumptions C64_constants.

(** test_reaction.cpp:35-41: the two survivals that need no outgoing energy, from any state of the
    storage *)
Theorem C64_survival_trivial junk (w : world float) :
  let c := get_material 6 in
  nonreaction_rate junk (proj 12 6 6 870) (set_thickness c (L 0.0)) Config0 w = Ok (L 1.0, w) /\
  nonreaction_rate junk (proj 12 6 6 0.0) (set_thickness c (L 6)) Config0 w = Ok (L (-1.0), w).
Proof. split; vm_compute; reflexivity. Qed.
Print Assumptions C64_survival_trivial.

(** test_reaction.cpp:51-75 *)
Theorem C64_production :
  let c := set_thickness (get_material 6) (L 0.1) in
  let c2 := set_thickness c (L 2.0) in
  let cs := L 70 in
  let r := L 0.0001 * cs * number_density_cm2 c in
  passes [
    near_R r (production_rate cs (L 870) (L 850) c) (L 0.01);
    near_R r (production_rate cs (L 2) (L 1) c) (L 0.001);
    near_R (production_rate cs (L 870) (L 870) c) (production_rate cs (L 870) (L 860) c) (L 0.001);
    near_R (production_rate cs (L 870) (L 870) c2) (production_rate cs (L 870) (L 860) c2) (L 0.001) ].
Proof. vm_compute. repeat constructor. Qed.
Print Assumptions C64_production.

(** test_storage.cpp:116-136 *)
Theorem C64_energy_table :
  let et := energy_table in
  let lv := lv_make (Z.to_nat max_datapoints) logEmin logEmax in
  let step := (logEmax - logEmin) / ofZ (max_datapoints - 1) in
  let pt i := fexp (LN10_ * (logEmin + ofZ i * step)) in
  let e i := on (aget (et_values et) i) in
  let last := (max_datapoints - 1)%Z in
  passes (
    [ same (et_step et) step; same (lv_step lv) step;
      e 0%Z (fun v => near_R v (fexp (LN10_ * logEmin)) (L 1e-9));
      near_R (lv_value lv 0) (fexp (LN10_ * logEmin)) (L 1e-9);
      e last (fun v => near v (fexp (LN10_ * logEmax)) (L 1e-6));
      near (lv_value lv last) (fexp (LN10_ * logEmax)) (L 1e-6) ] ++
    map (fun i => e i (fun v => near_R v (pt i) (L 1e-9))) [1; 2; 3; 4; 5]%Z ++
    map (fun i => near_R (lv_value lv i) (pt i) (L 1e-9)) [1; 2; 3; 4; 5]%Z).
Proof. vm_compute. repeat constructor. Qed.
Print Assumptions C64_energy_table.

