(** * The program that writes include/catima/generated_LS_coeff.h: utils/generator.cpp

    [show] prints a double (operator<<); [ls] and [lsX] are bethek_lindhard and bethek_lindhard_X of
    Lindhard.v with a number of steps (the program below), [None] when a series needs more.  The lines on the terminal (z/108) and errors of the file system are not modelled. *)
From Coq Require Import ZArith Ascii String List Bool.
From Verif Require Import Num Structures Lindhard Convert.
Import ListNotations.
Local Open Scope string_scope.
Local Open Scope list_scope.

Section Generator.
  Context {F : Type} {N : Num F}.
  Variable show : F -> string.
  Variables ls lsX : Projectile F -> option F.
  Local Open Scope num_scope.

  (** generator.cpp:13-18; num_LS_datapoints is a double, i < num_LS_datapoints compares doubles *)
  Definition gen_logEmin : F := lit 0.0.
  Definition gen_logEmax : F := lit 7.0.
  Definition gen_points : F := lit 200.
  Definition gen_energy (i : Z) : F :=
    fexp (LN10_ * (gen_logEmin + ofZ i * (gen_logEmax - gen_logEmin) / (gen_points - lit 1.0))).
  (** nucdata.h:20 *)
  Definition ATOMIC_WEIGHT_MAXZ : Z := 110.

  (** 80-98: one column of the four tables *)
  Definition gen_column (z i : Z) : option (F * F * F * F) :=
    let A := element_atomic_weight z in
    let p := mkProj A (ofZ z) (lit 0) (gen_energy i) in
    r <~ ls p ;;
    x1 <~ lsX p ;;
    let p := mkProj (A + A * lit 0.05) (ofZ z) (lit 0) (gen_energy i) in
    r2 <~ ls p ;;
    x2 <~ lsX p ;;
    Some (r, r2, x1, x2).
  Definition tabulator : string := String (ascii_of_nat 9) "".
  (** the four streams sv1, sv2, sx1, sx2 *)
  Definition four : Type := string * string * string * string.
  Definition each (s : string) (o : four) : four :=
    match o with (a, b, c, d) => (a ++ s, b ++ s, c ++ s, d ++ s)%string end.
  Definition emit (v : F * F * F * F) (o : four) : four :=
    match o, v with (a, b, c, d), (r, r2, x1, x2) => (a ++ show r, b ++ show r2, c ++ show x1, d ++ show x2)%string end.
  (** 81-99; n columns are left *)
  Fixpoint gen_columns (z i : Z) (n : nat) (o : four) : option four :=
    match n with
    | O => Some o
    | S n' =>
        v <~ gen_column z i ;;
        let o := if (i =? 0)%Z then o else each "," o in
        gen_columns z (i + 1) n' (emit v o)
    end.
  (** 71-104; z < ATOMIC_WEIGHT_MAXZ - 1 *)
  Fixpoint gen_rows (z : Z) (n : nat) (o : four) : option four :=
    match n with
    | O => Some o
    | S n' =>
        let o := if (z =? 1)%Z then o else each "," o in
        let o := each (nl ++ tabulator ++ "{")%string o in
        o <~ gen_columns z 0 200 o ;;
        gen_rows (z + 1) n' (each "}" o)
    end.
  Definition gen_tables : option four :=
    o <~ gen_rows 1 (Z.to_nat (ATOMIC_WEIGHT_MAXZ - 2)) ("{", "{", "{", "{")%string ;;
    Some (each (nl ++ "};")%string o).

  Definition quote : string := String (ascii_of_nat 34) "".
  (** 36-50 *)
  Definition gen_head : string :=
    ("//LS precalculated LS coefficients " ++ nl ++ " #include " ++ quote ++ "catima/storage.h" ++ quote ++ nl ++ nl
     ++ "#define LS_NUM_ENERGY_POINTS " ++ show gen_points ++ nl
     ++ "#define LS_MAX_Z " ++ show_int ATOMIC_WEIGHT_MAXZ ++ nl
     ++ "namespace catima{" ++ nl ++ nl ++ "namespace ls_coefficients{" ++ nl ++ nl
     ++ "// relative difference of mass number for 2nd mass point ls_coefficients_ahi " ++ nl ++ nl
     ++ "constexpr double a_rel_increase=0.05;" ++ nl
     ++ "constexpr double logEmin = " ++ show gen_logEmin ++ ";" ++ nl
     ++ "constexpr double logEmax = " ++ show gen_logEmax ++ ";" ++ nl
     ++ "// energy points array in MeV/u " ++ nl
     ++ "EnergyTable<" ++ show gen_points ++ "> ls_energy_table(" ++ show gen_logEmin ++ "," ++ show gen_logEmax ++ ");" ++ nl)%string.
  Definition gen_array (name : string) : string := ("double " ++ name ++ "[][" ++ show gen_points ++ "]=" ++ nl)%string.
  (** 110-139 *)
  Definition generator : option string :=
    o <~ gen_tables ;;
    match o with (sv1, sv2, sx1, sx2) =>
      Some (gen_head
        ++ nl ++ "//arrays dimensions are [z][energy], z=1 starts from index=0" ++ nl
        ++ nl ++ "//LS coefficient for A=atomic weight" ++ nl ++ gen_array "ls_coefficients_a" ++ sv1 ++ nl
        ++ nl ++ "//LS coefficient for A=atomic weight * 1.05" ++ nl ++ gen_array "ls_coefficients_ahi" ++ sv2 ++ nl
        ++ nl ++ "//arrays dimensions are [z][energy], z=1 starts from index=0" ++ nl
        ++ nl ++ "//LS X coefficient (dE straggling) for A=atomic weight" ++ nl ++ gen_array "ls_X_coefficients_a" ++ sx1 ++ nl
        ++ nl ++ "//LS X coefficient for A=atomic weight * 1.05" ++ nl ++ gen_array "ls_X_coefficients_ahi" ++ sx2 ++ nl
        ++ nl ++ "}" ++ nl ++ nl ++ "}" ++ nl)%string
    end.
End Generator.

(** generator.cpp:21-146 *)
Definition generator_main {F : Type} {N : Num F} {G : Trig F} (fuel : nat) (show : F -> string) : option string :=
  generator show (bethek_lindhard fuel) (bethek_lindhard_X fuel).
