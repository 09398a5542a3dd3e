(** * Specification data for the databases (C32-C35): written independently of the model

    Element symbols, a reader for chemical formulas, and textbook formulas of common compounds. *)
From Coq Require Import ZArith QArith List Bool String Ascii.
From Verif Require Import Num.
Import ListNotations.
Local Open Scope string_scope.

(** exact value of a decimal literal *)
Definition dec_Q (d : dec) : Q :=
  match d with
  | Dec m e => match e with Zneg p => (m # (10 ^ p))%Q | _ => inject_Z (m * 10 ^ e) end
  end.

Definition symbols : list string :=
  ["H";"He";"Li";"Be";"B";"C";"N";"O";"F";"Ne";"Na";"Mg";"Al";"Si";"P";"S";"Cl";"Ar";"K";"Ca";
   "Sc";"Ti";"V";"Cr";"Mn";"Fe";"Co";"Ni";"Cu";"Zn";"Ga";"Ge";"As";"Se";"Br";"Kr";"Rb";"Sr";"Y";
   "Zr";"Nb";"Mo";"Tc";"Ru";"Rh";"Pd";"Ag";"Cd";"In";"Sn";"Sb";"Te";"I";"Xe";"Cs";"Ba";"La";"Ce";
   "Pr";"Nd";"Pm";"Sm";"Eu";"Gd";"Tb";"Dy";"Ho";"Er";"Tm";"Yb";"Lu";"Hf";"Ta";"W";"Re";"Os";"Ir";
   "Pt";"Au";"Hg";"Tl";"Pb";"Bi";"Po";"At";"Rn";"Fr";"Ra";"Ac";"Th";"Pa";"U";"Np";"Pu";"Am";"Cm";
   "Bk";"Cf";"Es";"Fm";"Md";"No";"Lr";"Rf";"Db";"Sg";"Bh";"Hs";"Mt"].

Fixpoint symbol_index (l : list string) (s : string) (z : Z) : option Z :=
  match l with
  | [] => None
  | x :: l' => if String.eqb x s then Some z else symbol_index l' s (z + 1)%Z
  end.
Definition symbol_Z (s : string) : option Z := symbol_index symbols s 1.

Definition is_lower (c : ascii) : bool :=
  (Nat.leb 97 (nat_of_ascii c) && Nat.leb (nat_of_ascii c) 122)%bool.
Definition digit (c : ascii) : option Z :=
  let n := nat_of_ascii c in
  if (Nat.leb 48 n && Nat.leb n 57)%bool then Some (Z.of_nat (n - 48)) else None.

(** leading digits; no digits means 1 *)
Fixpoint read_number (s : string) (acc : option Z) : Z * string :=
  match s with
  | String c s' =>
      match digit c with
      | Some d => read_number s' (Some (match acc with Some a => 10 * a + d | None => d end)%Z)
      | None => (match acc with Some a => a | None => 1%Z end, s)
      end
  | EmptyString => (match acc with Some a => a | None => 1%Z end, s)
  end.

(** a formula is a sequence of element symbols (one capital, optionally one lower-case letter)
    each followed by an optional number; the result lists (Z, number) *)
Fixpoint read_formula (fuel : nat) (s : string) : option (list (Z * Z)) :=
  match fuel with
  | O => None
  | S fuel' =>
      match s with
      | EmptyString => Some []
      | String c s1 =>
          let '(sym, rest) :=
            match s1 with
            | String c2 s2 => if is_lower c2 then (String c (String c2 EmptyString), s2)
                              else (String c EmptyString, s1)
            | EmptyString => (String c EmptyString, s1)
            end in
          match symbol_Z sym with
          | None => None
          | Some z =>
              let '(n, rest) := read_number rest None in
              match read_formula fuel' rest with
              | Some l => Some ((z, n) :: l)
              | None => None
              end
          end
      end
  end.
Definition formula (s : string) : option (list (Z * Z)) := read_formula (S (String.length s)) s.

(** number of atoms of element z in a composition *)
Definition count {A} (add : A -> A -> A) (zero : A) (l : list (Z * A)) (z : Z) : A :=
  fold_right (fun e acc => if Z.eqb (fst e) z then add (snd e) acc else acc) zero l.

(** chemical formulas of compounds known by a trivial name (for polymers: the repeat unit) *)
Definition textbook : list (string * string) :=
  [("Water","H2O"); ("Diamond","C"); ("Methane","CH4"); ("Isobutane","C4H10"); ("Mylar","C10H8O4");
   ("Methanol","CH4O"); ("Acetone","C3H6O"); ("Acetylene","C2H2"); ("Adenine","C5H5N5");
   ("Alanine","C3H7NO2"); ("Ammonia","NH3"); ("Aniline","C6H7N"); ("Anthracene","C14H10");
   ("Benzene","C6H6"); ("BGO","Bi4Ge3O12"); ("nButanol","C4H10O"); ("Tetrachloroethylene","C2Cl4");
   ("Chlorobenzene","C6H5Cl"); ("Chloroform","CHCl3"); ("Cyclohexane","C6H12");
   ("Diethyl_Ether","C4H10O"); ("Ethane","C2H6"); ("Ethanol","C2H6O"); ("Ethylene","C2H4");
   ("Freon_12","CCl2F2"); ("Freon_12B2","CBr2F2"); ("Freon_13","CClF3"); ("Freon_13B1","CBrF3");
   ("Freon_13I1","CF3I"); ("Glucose","C6H12O6"); ("Glutamine","C5H10N2O3"); ("Glycerol","C3H8O3");
   ("Guanine","C5H5N5O"); ("nHeptane","C7H16"); ("nHexane","C6H14"); ("Naphthalene","C10H8");
   ("Nitrobenzene","C6H5NO2"); ("Octane","C8H18"); ("nPentane","C5H12"); ("Polyacrylonitrile","C3H3N");
   ("PMMA","C5H8O2"); ("POM","CH2O"); ("Polypropylene","C3H6"); ("Polystyrene","C8H8");
   ("Propane","C3H8"); ("nPropanol","C3H8O"); ("PVC","C2H3Cl"); ("Pyridine","C5H5N");
   ("Sucrose","C12H22O11"); ("Teflon","C2F4"); ("Toluene","C7H8"); ("Trichloroethylene","C2HCl3");
   ("Valine","C5H11NO2"); ("Iodonaphthalene","C10H7I"); ("Nylon","C6H11NO");
   ("LLZO_electrolyte","Li7La3Zr2O12"); ("Polyolefin","C8H16")].
