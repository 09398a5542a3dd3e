(** * The program catima_calculator: bin/catima_calculator.cpp from the parsed JSON text to the text printed

    The JSON library (nlohmann) is not part of the repository. What the program uses of it: the type tests,
    count (0 on anything but an object), at (an exception on a short array), operator[] on a key that exists,
    get<double> (numbers only), get<int> (a floating number is converted to int, an integer is reduced modulo 2^32,
    true and false are 1 and 0). An object is the list of its members (the parser leaves one member per key).

    [show] prints a double (operator<<), [stod] is std::stod with [None] for an exception. Both are parameters.
    A run is the text printed and, unless an exception leaves it, a value. *)
From Coq Require Import ZArith Ascii String List Bool.
From Verif Require Import Num Structures Calculations Storage Catima NucData Calculator Convert.
Import ListNotations.
Local Open Scope string_scope.
Local Open Scope list_scope.

Inductive json (F : Type) : Type :=
| JNull | JBool (b : bool) | JInt (z : Z) | JFloat (x : F) | JString (s : string)
| JArray (l : list (json F)) | JObject (l : list (string * json F)).
Arguments JNull {F}. Arguments JBool {F}. Arguments JInt {F}. Arguments JFloat {F}. Arguments JString {F}. Arguments JArray {F}. Arguments JObject {F}.

(** the member of an object; None: count is 0 *)
Fixpoint assoc {A} (k : string) (l : list (string * A)) : option A :=
  match l with [] => None | (k', v) :: l' => if String.eqb k k' then Some v else assoc k l' end.
Definition field {F} (j : json F) (k : string) : option (json F) :=
  match j with JObject l => assoc k l | _ => None end.
Definition is_number {F} (j : json F) : bool := match j with JInt _ | JFloat _ => true | _ => false end.

(** text printed so far, and the value or None for an exception *)
Definition run (A : Type) : Type := outcome (string * option A).
Definition ret {A} (a : A) : run A := Ok (""%string, Some a).
Definition throw {A} : run A := Ok (""%string, None).
Definition print (s : string) : run unit := Ok (s, Some tt).
Definition rbind {A B} (m : run A) (k : A -> run B) : run B :=
  x <- m ;;
  match snd x with
  | None => Ok (fst x, None)
  | Some a => y <- k a ;; Ok ((fst x ++ fst y)%string, snd y)
  end.
(** catch(...) *)
Definition catch {A} (m : run A) (h : run A) : run A :=
  x <- m ;; match snd x with None => y <- h ;; Ok ((fst x ++ fst y)%string, snd y) | Some a => Ok x end.
Notation "x <-- m ;; k" := (rbind m (fun x => k)) (at level 61, m at next level, right associativity).
Notation "m >>> k" := (rbind m (fun _ => k)) (at level 60, right associativity).

Definition wrap32 (z : Z) : Z := ((z + 2147483648) mod 4294967296 - 2147483648)%Z.

Section Main.
  Context {F : Type} {N : Num F}.
  Variable junk : nat -> F * F.
  Variable show : F -> string.
  Variable stod : string -> option F.
  Local Open Scope num_scope.

  Definition get_double (j : json F) : run F :=
    match j with JInt z => ret (ofZ z) | JFloat x => ret x | _ => throw end.
  Definition get_int (j : json F) : run Z :=
    match j with
    | JInt z => ret (wrap32 z)
    | JFloat x => z <- cast (fto_int x) ;; ret z
    | JBool b => ret (if b then 1 else 0)%Z
    | _ => throw
    end.
  (** if(j.count(k)>0) v = j[k].get<...>() *)
  Definition get_or {A} (get : json F -> run A) (v : A) (j : json F) (k : string) : run A :=
    match field j k with Some e => get e | None => ret v end.

  (** catima_calculator.cpp:53-61.  A projectile that is not an array leaves A = Z = 0. *)
  Definition read_projectile (j : json F) : run (Projectile F) :=
    match field j "projectile" with
    | None => throw
    | Some (JArray l) =>
        match l with
        | a :: z :: _ => A <-- get_double a ;; Z <-- get_double z ;; ret (mkProj A Z (lit 0) (lit 0))
        | [a] => A <-- get_double a ;; throw
        | [] => throw
        end
    | Some _ => ret (mkProj (lit 0) (lit 0) (lit 0) (lit 0))
    end.

  (** 79-93: the grid; "step" is read as int, also when "num" is there *)
  Definition read_grid (e : json F) : run (list F) :=
    match field e "min", field e "max" with
    | Some lo, Some hi =>
        match field e "num", field e "step" with
        | None, None => ret []
        | num, step =>
            emin <-- get_double lo ;;
            emax <-- get_double hi ;;
            n <-- match step with
                  | Some s => st <-- get_int s ;; z <- cast (fto_int (lit 1 + (emax - emin) / ofZ st)) ;; ret z
                  | None => ret 0%Z
                  end ;;
            n <-- match num with Some k => get_int k | None => ret n end ;;
            ret (if (n >? 2)%Z then linspace_vector emin emax n else [])
        end
    | _, _ => ret []
    end.
  (** 73-78 *)
  Fixpoint read_numbers (l : list (json F)) : run (list F) :=
    match l with
    | [] => ret []
    | e :: l' =>
        if is_number e then x <-- get_double e ;; xs <-- read_numbers l' ;; ret (x :: xs)
        else read_numbers l'
    end.
  (** 64-97 *)
  Definition read_energy (j : json F) : run (list F) :=
    match field j "energy" with
    | None => throw
    | Some e =>
        match e with
        | JInt _ | JFloat _ => x <-- get_double e ;; ret [x]
        | JString s => match stod s with Some x => ret [x] | None => throw end
        | JArray l => read_numbers l
        | JObject _ => read_grid e
        | _ => ret []
        end
    end.

  (** 216-270: json_material of an object *)
  Definition read_material (j : json F) : run (Material F) :=
    catch
      (density <-- get_or get_double (lit 0.0) j "density" ;;
       th <-- get_or get_double (lit 0.0) j "thickness" ;;
       ip <-- get_or get_double (lit 0.0) j "Ipot" ;;
       a <-- get_or get_double (lit 0.0) j "A" ;;
       z <-- get_or get_int 0%Z j "Z" ;;
       if (z <=? 0)%Z then print ("Z=" ++ show_int z ++ nl)%string >>> throw
       else
         density <-- (if density <=? lit 0 then
                        let d := element_density z in
                        (if d <=? lit 0 then print ("Warning: material density = " ++ show d ++ nl)%string else ret tt) >>> ret d
                      else ret density) ;;
         (if th <=? lit 0 then print ("Warning: material thickness = " ++ show th ++ nl)%string else ret tt) >>>
         (if (z <? 200)%Z then
            let m := Material_elem a z density th (lit 0.0) in
            ret (if lit 0 <? ip then set_I m ip else m)
          else ret (set_thickness (get_material z) th)))
      (print ("JSON parsing error: material definition" ++ nl)%string >>> throw).

  (** 99-115 *)
  Fixpoint read_layers (l : list (json F)) : run (Layers F) :=
    match l with
    | [] => ret []
    | JObject kv :: l' => m <-- read_material (JObject kv) ;; ms <-- read_layers l' ;; ret (m :: ms)
    | _ :: _ => throw
    end.
  Definition read_materials (j : json F) : run (Layers F) :=
    match field j "material" with
    | None => throw
    | Some (JArray l) => read_layers l
    | Some (JObject kv) => m <-- read_material (JObject kv) ;; ret [m]
    | Some _ => ret []
    end.

  (** 116-129; conf is not used afterwards *)
  Definition read_config (j : json F) : run (Config F) :=
    match field j "config" with
    | Some (JString s) =>
        if String.eqb s "atimav1.3" then print ("using config: Atima v1.3" ++ nl)%string >>> ret (parse_config Atima13)
        else if String.eqb s "atimav1.4" then print ("using config: Atima v1.4" ++ nl)%string >>> ret (parse_config Atima14)
        else ret (parse_config NoConfig)
    | _ => ret (parse_config NoConfig)
    end.

  (** 50, 191-214: the file named on the command line *)
  Inductive file := Missing | Unparsable | Parsed (j : json F).
  Definition load_json (f : file) : run (json F) :=
    match f with
    | Missing => throw
    | Unparsable => print ("JSON parsing error" ++ nl)%string >>> throw
    | Parsed j => ret j
    end.

  (** 49-131 *)
  Definition read_all (f : file) : run (Projectile F * list F * Layers F * Config F) :=
    j <-- load_json f ;;
    p <-- read_projectile j ;;
    es <-- read_energy j ;;
    ls <-- read_materials j ;;
    c <-- read_config j ;;
    ret (p, es, ls, c).

  (** 151-156 *)
  Fixpoint layer_lines (i : nat) (ls : Layers F) : string :=
    match ls with
    | [] => ""
    | m :: ls' => "#" ++ show_int (Z.of_nat i) ++ ": density = " ++ show (m_rho m) ++ " g/cm3" ++ ", thickness = " ++ show (m_th m) ++ " g/cm2" ++ nl
                  ++ layer_lines (S i) ls'
    end%string.
  Definition tab : string := String (ascii_of_nat 9) "".
  (** 162-174 *)
  Fixpoint result_lines (i : nat) (rs : list (Result F)) : string :=
    match rs with
    | [] => ""
    | r :: rs' =>
        "material #" ++ show_int (Z.of_nat i) ++ ":" ++ nl
        ++ tab ++ "Ein = " ++ show (r_Ein r) ++ " MeV/u" ++ nl
        ++ tab ++ "Eout = " ++ show (r_Eout r) ++ " MeV/u" ++ nl
        ++ tab ++ "sigma_E = " ++ show (r_sigma_E r) ++ " MeV" ++ nl
        ++ tab ++ "Eloss = " ++ show (r_Eloss r) ++ " MeV" ++ nl
        ++ tab ++ "range = " ++ show (r_range r) ++ " g/cm2" ++ nl
        ++ tab ++ "sigma_r = " ++ show (r_sigma_r r) ++ " g/cm2" ++ nl
        ++ tab ++ "sigma_a = " ++ show (r_sigma_a r) ++ " rad" ++ nl
        ++ tab ++ "dEdx(Ein) = " ++ show (r_dEdxi r) ++ " MeV/g/cm2" ++ nl
        ++ tab ++ "TOF = " ++ show (r_tof r) ++ " ns" ++ nl
        ++ result_lines (S i) rs'
    end%string.
  (** 175-183 *)
  Definition total_lines (p : Projectile F) (t : Result F) : string :=
    ("total:" ++ nl
     ++ tab ++ "Eout = " ++ show (r_Eout t) ++ " MeV/u" ++ nl
     ++ tab ++ "Beta = " ++ show (beta_from_T (r_Eout t)) ++ nl
     ++ tab ++ "Gamma = " ++ show (gamma_from_T (r_Eout t)) ++ nl
     ++ tab ++ "P = " ++ show (p_from_T (r_Eout t) (pA p)) ++ " MeV/c" ++ nl
     ++ tab ++ "Eloss = " ++ show (r_Eloss t) ++ " MeV" ++ nl
     ++ tab ++ "sigma_E = " ++ show (r_sigma_E t) ++ " MeV" ++ nl
     ++ tab ++ "sigma_a = " ++ show (r_sigma_a t) ++ " rad" ++ nl
     ++ tab ++ "TOF = " ++ show (r_tof t) ++ " ns" ++ nl)%string.
  (** 158-184: one energy after the other *)
  Fixpoint energy_lines (p : Projectile F) (ls : Layers F) (es : list F) (w : world F) : outcome (string * world F) :=
    match es with
    | [] => Ok (""%string, w)
    | e :: es' =>
        ' (r, w) <- calculate_layers junk (at_T p e) Phasespace0 ls (w_default w) w ;;
        ' (s, w) <- energy_lines p ls es' w ;;
        Ok (("-------- T = " ++ show e ++ " MeV/u -------" ++ nl ++ result_lines 0 (mr_results r) ++ total_lines p (mr_total r) ++ s)%string, w)
    end.
  (** 148-156: before the first energy *)
  Definition title_lines (p : Projectile F) (ls : Layers F) : string :=
    ("******** CAtima calculator ********" ++ nl
     ++ "Projectile: A = " ++ show (pA p) ++ ", Z = " ++ show (pZ p) ++ nl
     ++ "Materials:" ++ nl ++ layer_lines 0 ls)%string.

  (** 38-187: text printed, exit status and the state of the library afterwards; [None] as argument: argc == 1 *)
  Definition calculator (arg : option file) (w : world F) : outcome (string * Z * world F) :=
    match arg with
    | None => Ok (("usage: catima_calculator config_file.json" ++ nl)%string, 0%Z, w)
    | Some f =>
        x <- read_all f ;;
        match snd x with
        | None => Ok ((fst x ++ "Could not load the config file" ++ nl)%string, 0%Z, w)
        | Some (p, es, ls, c) =>
            match ls, es with
            | [], _ => Ok ((fst x ++ "no material specified" ++ nl)%string, 0%Z, w)
            | _, [] => Ok ((fst x ++ "no energy specified" ++ nl)%string, 0%Z, w)
            | _, _ =>
                ' (s, w) <- energy_lines p ls es w ;;
                Ok ((fst x ++ title_lines p ls ++ s)%string, 1%Z, w)
            end
        end
    end.
End Main.
Arguments Missing {F}. Arguments Unparsable {F}. Arguments Parsed {F}. Arguments file F : clear implicits.
