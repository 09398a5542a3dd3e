(** * Command line calculator: bin/catima_calculator.cpp (without JSON parsing and printing)

    The parsed input is a record; [option] fields are absent keys. *)
From Coq Require Import ZArith List Bool.
From Verif Require Import Num Structures Storage Catima NucData.
Import ListNotations.

Section Calculator.
  Context {F : Type} {N : Num F}.
  Variable junk : nat -> F * F.
  Local Open Scope num_scope.

  (** catima_calculator.cpp:21-32.  num is unsigned; i*step converts i to double *)
  Definition linspace_vector (a b : F) (num : Z) : list F :=
    if ((2 <=? num)%Z && (a <? b))%bool then
      let step := (b - a) / ofZ (num - 1) in
      map (fun i => a + ofZ (Z.of_nat i) * step) (seq 0 (Z.to_nat (num - 1))) ++ [b]
    else [].

  (** catima_calculator.cpp:61-96: the "energy" entry *)
  Inductive energy_input :=
  | ENumber (e : F)
  | EArray (l : list F)
  | EGrid (emin emax : F) (num step : option Z).

  (** 82-90: step is read as int, the double quotient is converted to int; "num" wins; the grid is
      used only for num > 2 *)
  Definition grid_num (emin emax : F) (num step : option Z) : outcome Z :=
    n <- match step with
         | Some s => cast (fto_int (lit 1 + (emax - emin) / ofZ s))
         | None => Ok 0%Z
         end ;;
    Ok match num with Some k => k | None => n end.
  Definition energies (i : energy_input) : outcome (list F) :=
    match i with
    | ENumber e => Ok [e]
    | EArray l => Ok l
    | EGrid emin emax None None => Ok []
    | EGrid emin emax num step =>
        n <- grid_num emin emax num step ;;
        Ok (if (n >? 2)%Z then linspace_vector emin emax n else [])
    end.

  (** catima_calculator.cpp:216-270: json_material; None = exception *)
  Record material_input := mkMI {
    mi_A : option F; mi_Z : option Z; mi_density : option F; mi_thickness : option F;
    mi_Ipot : option F }.
  Definition opt (o : option F) : F := match o with Some v => v | None => lit 0.0 end.
  Definition json_material (j : material_input) : option (Material F) :=
    let a := opt (mi_A j) in
    let z := match mi_Z j with Some z => z | None => 0%Z end in
    let density := opt (mi_density j) in
    let th := opt (mi_thickness j) in
    let ip := opt (mi_Ipot j) in
    if (z <=? 0)%Z then None
    else
      let density := if density <=? lit 0 then element_density z else density in
      if (z <? 200)%Z then
        let m := Material_elem a z density th (lit 0.0) in
        Some (if lit 0 <? ip then set_I m ip else m)
      else Some (set_thickness (get_material z) th).

  (** catima_calculator.cpp:117-130: the "config" entry.  The result is never used. *)
  Inductive config_input := NoConfig | Atima13 | Atima14.
  Definition parse_config (i : config_input) : Config F :=
    let c := Config0 in
    match i with
    | NoConfig => c
    | Atima13 => mkConfig z_pierce_blann (c_corr c) (c_calc c) (c_low c) (c_scat c) (c_sfac c)
    | Atima14 => mkConfig z_atima14 (c_corr c) (c_calc c) (c_low c) (c_scat c) (c_sfac c)
    end.

  Record input := mkInput {
    in_A : F; in_Z : F; in_energy : energy_input;
    in_materials : list material_input; in_config : config_input }.

  Fixpoint all_some {A} (l : list (option A)) : option (list A) :=
    match l with
    | [] => Some []
    | Some x :: l' => option_map (cons x) (all_some l')
    | None :: l' => None
    end.

  (** catima_calculator.cpp:145-171: for every energy one calculate on the stack; Projectile members
      are assigned directly, so Q keeps its default 0; the config argument is the default one *)
  Fixpoint run_energies (p : Projectile F) (layers : Layers F) (es : list F) (w : world F)
    : outcome (list (MultiResult F) * world F) :=
    match es with
    | [] => Ok ([], w)
    | e :: es' =>
        ' (r, w) <- calculate_layers junk (at_T p e) Phasespace0 layers (w_default w) w ;;
        ' (rs, w) <- run_energies p layers es' w ;;
        Ok (r :: rs, w)
    end.

  (** None = the program ends with a message *)
  Definition main_ (i : input) (w : world F)
    : outcome (option (list (MultiResult F)) * world F) :=
    let p := mkProj (in_A i) (in_Z i) (lit 0) (lit 0) in
    es <- energies (in_energy i) ;;
    match all_some (map json_material (in_materials i)) with
    | None => Ok (None, w)
    | Some layers =>
        let conf := parse_config (in_config i) in
        match layers, es with
        | [], _ => Ok (None, w)
        | _, [] => Ok (None, w)
        | _, _ =>
            ' (rs, w) <- run_energies p layers es w ;;
            Ok (Some rs, w)
        end
    end.
End Calculator.
Arguments energy_input F : clear implicits.
Arguments material_input F : clear implicits.
Arguments input F : clear implicits.
