(** * Databases: src/abundance_database.cpp, src/material_database.cpp, include/catima/convert.h *)
From Coq Require Import ZArith List Bool.
From Verif Require Import Num Structures DataAbundance DataMaterials.
Import ListNotations.

(** ** abundance_database.cpp *)
Definition abundance_z_max : Z := 109.
Definition isotopes_num_data : Z := 313.

(** abundance_database.cpp:18-24.  Array accesses are checked. *)
Definition get_isotopes_num (z : Z) : outcome Z :=
  if ((z <? 1) || (z >? abundance_z_max))%Z then Ok 0%Z
  else
    idx <- aget abundance_z_index (z - 1) ;;
    hi <- (if (z <? abundance_z_max)%Z then aget abundance_z_index z else Ok isotopes_num_data) ;;
    Ok (hi - idx)%Z.

(** the int addition i+1 *)
Definition iinc (i : Z) : outcome Z :=
  if (i =? 2147483647)%Z then UB SignedOverflow else Ok (i + 1)%Z.

(** abundance_database.cpp:28, 34, 41: num==0 || (i+1) > num *)
Definition no_isotope (num i : Z) : outcome bool :=
  if (num =? 0)%Z then Ok true else j <- iinc i ;; Ok (j >? num)%Z.

(** abundance_database.cpp:26-30 *)
Definition get_isotope_a (z i : Z) : outcome Z :=
  num <- get_isotopes_num z ;;
  none <- no_isotope num i ;;
  if (none : bool) then Ok 0%Z
  else idx <- aget abundance_z_index (z - 1) ;; aget isotopes_a (idx + i).

(** abundance_database.cpp:32-36.  The table is of type float; the model keeps the decimal value. *)
Definition get_abundance (z i : Z) : outcome dec :=
  num <- get_isotopes_num z ;;
  none <- no_isotope num i ;;
  if (none : bool) then Ok 0%dec
  else idx <- aget abundance_z_index (z - 1) ;; aget isotopes_abundance (idx + i).

(** abundance_database.cpp:38-47 *)
Definition get_isotope (z i : Z) : outcome (Z * dec) :=
  num <- get_isotopes_num z ;;
  none <- no_isotope num i ;;
  if (none : bool) then Ok (0%Z, 0%dec)
  else
    idx <- aget abundance_z_index (z - 1) ;;
    a <- aget isotopes_a (idx + i) ;;
    b <- aget isotopes_abundance (idx + i) ;;
    Ok (a, b).

Section Materials.
  Context {F : Type} {N : Num F}.
  Local Open Scope num_scope.

  (** material_database.cpp:13-166: the switch; each case is one entry of [compounds] *)
  Definition compound_material (c : compound) : Material F :=
    Material_list (map (fun e => match e with (a, z, s) => (lit a, z, lit s) end) (cmp_atoms c))
                  (lit (cmp_density c)) (lit 0.0) (lit 0.0).
  Definition get_compound (id : Z) : Material F :=
    match find (fun c => Z.eqb (cmp_id c) id) compounds with
    | Some c => compound_material c
    | None => Material0
    end.

  (** material_database.cpp:6-11; ELEMENT_DENSITY_MAXZ is 99 *)
  Definition get_material (id : Z) : Material F :=
    if ((0 <? id) && (id <? 99))%Z
    then Material_elem (lit 0) id (element_density id) (lit 0.0) (lit 0.0)
    else get_compound id.

  (** convert.h:28-38 *)
  Fixpoint atoms_match (l1 l2 : list (Target F)) : bool :=
    match l1, l2 with
    | a :: l1', b :: l2' =>
        if negb (tstn a =? tstn b) then false
        else if negb (tA a =? tA b) then false
        else if negb (Z.eqb (tZ a) (tZ b)) then false
        else atoms_match l1' l2'
    | _, _ => true
    end.
  Definition mocadi_material_match (a b : Material F) : bool :=
    if lit 1e-6 <? fabs (m_rho a - m_rho b) then false
    else if negb (Z.eqb (ncomponents a) (ncomponents b)) then false
    else if negb (atoms_match (m_atoms a) (m_atoms b)) then false
    else if negb (m_M a =? m_M b) then false
    else true.

  (** convert.h:40-47: for i = 201..347 *)
  Definition materialdb_id (m : Material F) : Z :=
    match find (fun i => mocadi_material_match (get_material i) m)
               (map (fun k => (201 + Z.of_nat k)%Z) (seq 0 147)) with
    | Some i => i
    | None => 0%Z
    end.

  (** convert.h:61-70: mass and charge written by save_mocadi for one layer *)
  Definition mocadi_layer (m : Material F) : outcome (F * Z) :=
    if (ncomponents m =? 1)%Z then
      t <- get_element m 0 ;; Ok (tA t, tZ t)
    else Ok (lit 0.0, materialdb_id m).
End Materials.
