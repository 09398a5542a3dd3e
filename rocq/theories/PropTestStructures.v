(** * C64: the unit tests of tests/test_structures.cpp and tests/test_abundances.cpp hold of the
      model in double precision *)
From Coq Require Import ZArith List Bool Floats.
From Verif Require Import Num NumF DataAbundance Structures NucData LibmZ TestCases.
Import ListNotations.
Local Open Scope num_scope.

Notation L := lit (only parsing).
Definition mat_list (l : list (dec * Z * dec)) : Material float :=
  Material_list (map (fun e => match e with (a, z, s) => (L a, z, L s) end) l) (L 1e-5) (L 0.0) (L 0.0).

(** test_structures.cpp:10-54 *)
Theorem C64_material_basic :
  let water := mat_list [(1, 1%Z, 2); (16, 8%Z, 1)]%dec in
  let water2 := add_element (add_element Material0 (L 1) 1 (L 2)) (L 16) 8 (L 1) in
  let graphite := set_density (add_element Material0 (L 12) 6 (L 1)) (L 1.8) in
  let graphite' := add_element graphite (L 18) 40 (L 1) in
  let w1 := set_thickness (set_density water (L 1.0)) (L 1.0) in
  let w2 := set_thickness_cm w1 (L 1.0) in
  let w3 := set_thickness_cm w2 (L 2.0) in
  let w4 := set_density w3 (L 2.0) in
  let w5 := set_thickness w4 (L 1.0) in
  passes [
    (ncomponents graphite =? 1)%Z; (ncomponents water =? 2)%Z;
    same (m_M graphite) (L 12); (ncomponents water =? 2)%Z; same (m_M water) (L 18);
    (ncomponents water2 =? 2)%Z; same (m_M water2) (L 18); same (m_I graphite) (L 0.0);
    (ncomponents graphite' =? 2)%Z; negb (near (m_M graphite') (L 12) (L 0.1));
    near (m_rho water) (m_rho water2) (L 1e-6);
    mat_eqb water water2; negb (mat_eqb water graphite');
    near (m_th w1) (L 1.0) (L 0.0001);
    near (m_th w2) (L 1.0) (L 0.0001); near (thickness_cm w2) (L 1.0) (L 0.0001);
    near (m_th w3) (L 2.0) (L 0.0001); near (thickness_cm w3) (L 2.0) (L 0.0001);
    near (m_th w4) (L 2.0) (L 0.0001); near (thickness_cm w4) (L 1.0) (L 0.0001);
    near (thickness_cm w5) (L 0.5) (L 0.0001) ].
Proof. vm_compute. repeat constructor. Qed.
Print Assumptions C64_material_basic.

(** test_structures.cpp:55-63 *)
Theorem C64_automatic_weight :
  let water := mat_list [(0, 1%Z, 2); (0, 8%Z, 1)]%dec in
  let graphite := Material_elem (L 0) 6 (L 1e-5) (L 0.0) (L 0.0) in
  passes [
    on (get_element water 0) (fun t => same (tA t) (L 1.00794));
    on (get_element water 1) (fun t => same (tA t) (L 15.9994));
    on (get_element graphite 0) (fun t => same (tA t) (L 12.0107));
    PrimFloat.ltb (L 16) (m_M water); PrimFloat.ltb (L 12) (m_M graphite) ].
Proof. vm_compute. repeat constructor. Qed.
Print Assumptions C64_automatic_weight.

(** test_structures.cpp:64-77 *)
Theorem C64_default_materials :
  let m := get_material 6 in
  let w := get_material 206 in
  passes [
    on (get_element m 0) (fun t => same (tA t) (L 12.0107)); on (get_element m 0) (fun t => (tZ t =? 6)%Z);
    same (m_rho m) (L 2.0); same (m_M m) (L 12.0107);
    on (get_element w 0) (fun t => same (tA t) (L 1.00794)); on (get_element w 0) (fun t => (tZ t =? 1)%Z);
    on (get_element w 1) (fun t => same (tA t) (L 15.9994)); on (get_element w 1) (fun t => (tZ t =? 8)%Z);
    same (m_rho w) (L 1.0) ].
Proof. vm_compute. repeat constructor. Qed.
Print Assumptions C64_default_materials.

(** test_structures.cpp:78-120.  The assignment detector1[1].density(1.2) is a write into the
    vector; detector2 = detector1 copies it. *)
Theorem C64_layers :
  let water2 := set_thickness (set_density
    (add_element (add_element Material0 (L 1) 1 (L 2)) (L 16) 8 (L 1)) (L 1.0)) (L 2.0) in
  let graphite := set_thickness (set_density (add_element Material0 (L 12) 6 (L 1)) (L 1.8)) (L 1.0) in
  let d0 := [] : Layers float in
  let d1 := layers_add d0 graphite in
  let d := layers_add (layers_add d1 water2) graphite in
  let d' := match d with
            | a :: b :: c => a :: set_density b (L 1.2) :: c
            | _ => d
            end in
  let d2 := layers_add (layers_add d' water2) graphite in
  let get (l : Layers float) i := aget l i in
  passes [
    (layers_num d0 =? 0)%Z; (layers_num d1 =? 1)%Z; (layers_num d =? 3)%Z;
    near (layers_thickness d) (L 4.0) (L 1e-6);
    on (get d 0%Z) (fun m => same (m_rho m) (L 1.8)); on (get d 0%Z) (fun m => same (m_th m) (L 1.0));
    on (get d 1%Z) (fun m => same (m_rho m) (L 1.0)); on (get d 1%Z) (fun m => same (m_th m) (L 2.0));
    on (get d 0%Z) (fun m => on (get_element m 0) (fun t => (tZ t =? 6)%Z && same (tA t) (L 12)));
    on (get d 1%Z) (fun m => on (get_element m 0) (fun t => (tZ t =? 1)%Z && same (tA t) (L 1)));
    on (get d 2%Z) (fun m => same (m_rho m) (L 1.8));
    on (get d' 1%Z) (fun m => same (m_rho m) (L 1.2));
    (layers_num d' =? 3)%Z; (layers_num d2 =? 5)%Z; (layers_num (layers_plus d' d2) =? 8)%Z ].
Proof. vm_compute. repeat constructor. Qed.
Print Assumptions C64_layers.

(** test_structures.cpp:121-142 *)
Theorem C64_projectile :
  let p := Projectile_ (L 12) (L 6) (L 6) (L 1000) in
  let p2 := Projectile_ (L 12) (L 6) (L 0) (L 0) in
  let p2' := at_T p2 (L 1000) in
  let p2'' := at_T (at_T p2' (L 1000)) (L 500) in
  let p3 := Projectile_ (L 12) (L 6) (L 5) (L 0) in
  passes [
    same (pA p) (L 12); same (pZ p) (L 6); same (pQ p) (L 6); same (pT p) (L 1000);
    same (pA p) (L 12); same (pZ p2) (L 6); same (pQ p2) (L 6); same (pT p2) (L 0);
    same (pT p2') (L 1000); same (pT p2'') (L 500);
    proj_eqb p p2''; negb (proj_eqb p p3) ].
Proof. vm_compute. repeat constructor. Qed.
Print Assumptions C64_projectile.

(** test_structures.cpp:143-175 *)
Theorem C64_config :
  let zeff (c : Config float) z := mkConfig z (c_corr c) (c_calc c) (c_low c) (c_scat c) (c_sfac c) in
  let sfac (c : Config float) s := mkConfig (c_zeff c) (c_corr c) (c_calc c) (c_low c) (c_scat c) s in
  let c1 := Config0 in
  let c2 := Config0 in
  let c3 := zeff Config0 z_none in
  let c4 := Config0 in
  let c4a := sfac c4 (L 0.8) in
  let c4b := sfac c4a (L 1.0) in
  let c4c := zeff c4b z_global in
  let c5 := c4c in
  let c4d := zeff c4c z_hubert in
  let c4e := zeff c4d (c_zeff (Config0 : Config float)) in
  passes [
    (c_zeff c1 =? z_pierce_blann)%Z; (c_zeff c2 =? z_pierce_blann)%Z;
    negb (c_zeff c3 =? z_pierce_blann)%Z; (c_zeff c4 =? z_pierce_blann)%Z;
    config_eqb c1 c2; negb (config_eqb c1 c3); config_eqb c1 c4;
    negb (config_eqb c1 c4a); config_eqb c1 c4b; negb (config_eqb c1 c4c); config_eqb c4c c5;
    negb (config_eqb c4d c5); negb (config_eqb c4d c1); negb (config_eqb c5 c4e); config_eqb c1 c4e ].
Proof. vm_compute. repeat constructor. Qed.
Print Assumptions C64_config.

(** test_structures.cpp:176-222 *)
Theorem C64_constructors :
  let mat2 := Material_elem (L 12) 6 (L 2.5) (L 0.1) (L 0.0) in
  let mat3 := Material_elem (L 12.01) 6 (L 1e-5) (L 0.0) (L 0.0) in
  let mat4 := mat_list [(12.01, 6%Z, 1.0)]%dec in
  let mat5 := mat_list [(12.01, 6%Z, 1); (16.00, 8%Z, 2)]%dec in
  let mat6 := mat5 in
  let mat5' := add_element mat5 (L 12) 6 (L 1) in
  let w ip := Material_list [(L 1, 1%Z, L 2); (L 16, 8%Z, L 1)] (L 1.0) ip (L 0.0) in
  let water1 := w (L 0.0) in
  let water2 := w (L 78.0) in
  let A m i a := on (get_element m i) (fun t => same (tA t) (L a)) in
  passes [
    (ncomponents mat2 =? 1)%Z; (ncomponents mat3 =? 1)%Z; A mat3 0%Z 12.01%dec;
    (ncomponents mat4 =? 1)%Z; A mat4 0%Z 12.01%dec; (ncomponents mat5 =? 2)%Z; A mat5 0%Z 12.01%dec;
    on (get_element mat5 0) (fun t => (tZ t =? 6)%Z); A mat5 1%Z 16.0%dec;
    on (get_element mat5 1) (fun t => same (tstn t) (L 2));
    mat_eqb mat5 mat6; same (m_rho mat5) (m_rho mat6); (ncomponents mat5 =? ncomponents mat6)%Z;
    (ncomponents mat5' =? ncomponents mat6 + 1)%Z;
    (ncomponents water1 =? 2)%Z; (ncomponents water2 =? 2)%Z; same (m_rho water1) (L 1.0);
    same (m_rho water2) (L 1.0); same (m_I water1) (L 0.0); same (m_I water2) (L 78.0);
    negb (mat_eqb water1 water2) ].
Proof. vm_compute. repeat constructor. Qed.
Print Assumptions C64_constructors.

(** test_structures.cpp:242-277.  Material mat({12.0,6,1}) is read both as the element
    constructor and as a list of one element. *)
Theorem C64_fractions :
  let water1 := mat_list [(0, 1%Z, 0.111898); (0, 8%Z, 0.888102)]%dec in
  let water2 := mat_list [(0, 1%Z, 2); (0, 8%Z, 1)]%dec in
  let wf m i := on (weight_fraction m i) in
  let mf m i := on (molar_fraction m i) in
  let one m := [ near (m_M m) (L 12.0) (L 0.001); wf m 0%Z (fun v => near_R v (L 1.0) (L 1e-6)) ] in
  passes ([
    wf water1 0%Z (fun v => same v (L 0.111898));
    wf water2 0%Z (fun v => wf water1 0%Z (fun u => near_R v u (L 1e-5)));
    wf water1 1%Z (fun v => same v (L 0.888102));
    wf water2 1%Z (fun v => wf water1 1%Z (fun u => near_R v u (L 1e-5)));
    near (m_M water2) (L 18) (L 0.1);
    near (m_M water1) (L 6.0) (L 0.1); near (m_M water2) (L 18) (L 0.1);
    mf water1 0%Z (fun v => near_R v (L 2.0 / L 3.0) (L 1e-5));
    mf water2 0%Z (fun v => near_R v (L 2.0) (L 1e-5));
    mf water1 1%Z (fun v => near_R v (L 1.0 / L 3.0) (L 1e-5));
    mf water2 1%Z (fun v => near_R v (L 1.0) (L 1e-5));
    mf water1 0%Z (fun v => mf water1 1%Z (fun u => near_R (v / u) (L 2.0) (L 1e-5)));
    mf water2 0%Z (fun v => mf water2 1%Z (fun u => near_R (v / u) (L 2.0) (L 1e-5))) ]
    ++ one (Material_elem (L 12.0) 6 (L 1) (L 0.0) (L 0.0)) ++ one (mat_list [(12.0, 6%Z, 1)]%dec)).
Proof. vm_compute. repeat constructor. Qed.
Print Assumptions C64_fractions.

(** test_structures.cpp:278-310 *)
Theorem C64_number_density :
  let c0 := set_density (Material_elem (L 12.0) 6 (L 1) (L 0.0) (L 0.0)) (L 3.513) in
  let water := set_density (get_material 206) (L 0.9982) in
  let air := set_thickness_cm (set_density (get_material 202) (L 1.2041e-3)) (L 1.0) in
  let c := set_thickness_cm c0 (L 1.0) in
  let c' := set_thickness_cm c (L 2.0) in
  let w := set_thickness_cm water (L 1.0) in
  let w' := set_thickness_cm w (L 3.0) in
  let nd m i := on (number_density_i m i) in
  let nd2 m i := on (number_density_cm2_i m i) in
  passes [
    near (number_density c) (L 1.7662) (L 0.01); near (number_density_cm2 c) (L 1.7662) (L 0.01);
    nd c 0%Z (fun v => near v (L 1.7662) (L 0.01)); nd2 c 0%Z (fun v => near v (L 1.7662) (L 0.01));
    nd c 1%Z (fun v => same v (L 0.0)); nd2 c 1%Z (fun v => same v (L 0.0));
    near (number_density c') (L 1.7662) (L 0.01);
    near (number_density_cm2 c') (L 2.0 * L 1.7662) (L 0.01);
    near (number_density w) (L 0.3336) (L 0.001); near (number_density_cm2 w) (L 0.3336) (L 0.001);
    nd w 0%Z (fun v => near v (L 2 * L 0.3336) (L 0.001));
    nd2 w 0%Z (fun v => near v (L 2 * L 0.3336) (L 0.001));
    nd w 1%Z (fun v => near v (L 0.3336) (L 0.001)); nd2 w 1%Z (fun v => near v (L 0.3336) (L 0.001));
    near (number_density_cm2 w') (L 3.0 * L 0.3336) (L 0.001);
    nd air 0%Z (fun v => on (molar_fraction air 0) (fun u => near v (u * L 2 * L 0.0002504) (L 0.00001)));
    nd air 1%Z (fun v => on (molar_fraction air 1) (fun u => near v (u * L 2 * L 0.0002504) (L 0.00001)));
    nd air 2%Z (fun v => on (molar_fraction air 2) (fun u => near v (u * L 1 * L 0.0002504) (L 0.00001))) ].
Proof. vm_compute. repeat constructor. Qed.
Print Assumptions C64_number_density.

(** test_abundances.cpp:10-63 *)
Theorem C64_abundances :
  let num z n := on (get_isotopes_num z) (fun k => (k =? n)%Z) in
  let a z i v := on (get_isotope_a z i) (fun k => (k =? v)%Z) in
  let ab z i c := on (get_abundance z i) (fun d => c (L d : float)) in
  let ia z i v := on (get_isotope z i) (fun k => (fst k =? v)%Z) in
  let ib z i c := on (get_isotope z i) (fun k => c (L (snd k) : float)) in
  let app m v := near v (L m) (L 0.01) in
  let zero v := same v (L 0.0) in
  passes (
    [ num 1 2; num 27 1; num 0 0; num 111 0 ]%Z ++
    [ a 0 0 0; a 0 1 0; a 1 0 1; a 1 1 2; a 1 2 0; a 14 0 28; a 14 1 29; a 14 2 30; a 14 3 0;
      a 68 0 166; a 68 1 168; a 120 0 0 ]%Z ++
    [ ab 1%Z 0%Z (app 0.999%dec); ab 1%Z 2%Z zero; ab 14%Z 0%Z (app 0.922%dec);
      ab 14%Z 1%Z (app 0.046%dec); ab 14%Z 2%Z (app 0.0308%dec); ab 14%Z 3%Z zero;
      ab 68%Z 0%Z (app 0.336%dec); ab 68%Z 1%Z (app 0.267%dec); ab 120%Z 0%Z zero ] ++
    [ ia 0 0 0; ia 0 1 0; ia 1 0 1; ia 1 1 2; ia 1 2 0; ia 14 0 28; ia 14 1 29; ia 14 2 30; ia 14 3 0;
      ia 68 0 166; ia 68 1 168; ia 120 0 0 ]%Z ++
    [ ib 1%Z 0%Z (app 0.999%dec); ib 1%Z 2%Z zero; ib 14%Z 0%Z (app 0.922%dec);
      ib 14%Z 1%Z (app 0.046%dec); ib 14%Z 2%Z (app 0.0308%dec); ib 14%Z 3%Z zero;
      ib 68%Z 0%Z (app 0.336%dec); ib 68%Z 1%Z (app 0.267%dec); ib 120%Z 0%Z zero ]).
Proof. vm_compute. repeat constructor. Qed.
Print Assumptions C64_abundances.
