(** * include/catima/convert.h: the MOCADI writer

    A file is the string written to it.  [std::to_string] of a double prints six decimals in the C locale ("%f");
    it is a parameter [show] of the model, [show6] (PropConvert.v) is its real counterpart. *)
From Coq Require Import ZArith Ascii String List Bool.
From Verif Require Import Num Structures NucData.
Import ListNotations.
Local Open Scope string_scope.
Local Open Scope list_scope.

(** ** std::to_string(int): decimal digits *)
Definition digit (d : Z) : ascii := ascii_of_nat (Z.to_nat (48 + d)).
(** the last k digits of n *)
Fixpoint digits (k : nat) (n : Z) : string :=
  match k with O => "" | S k' => (digits k' (n / 10) ++ String (digit (n mod 10)) "")%string end.
Fixpoint digit_count (fuel : nat) (n : Z) : nat :=
  match fuel with O => 1 | S f => if (n <? 10)%Z then 1 else S (digit_count f (n / 10)) end.
Definition show_nonneg (n : Z) : string := digits (digit_count (Z.to_nat (Z.log2 n + 1)) n) n.
Definition show_int (n : Z) : string := if (n <? 0)%Z then (String "-" (show_nonneg (- n)))%string else show_nonneg n.

Definition nl : string := String (ascii_of_nat 10) "".

Section Convert.
  Context {F : Type} {N : Num F}.
  Variable show : F -> string.
  Local Open Scope num_scope.

  (** convert.h:53-56 *)
  Definition mocadi_header : string := ("epax 2" ++ nl ++ "atima-1.0" ++ nl ++ "option listmode root" ++ nl)%string.
  Definition mocadi_beam (p : Projectile F) (psx psy : Phasespace F) : string :=
    ("BEAM" ++ nl ++ "100000" ++ nl ++ show (pT p) ++ ", 0, " ++ show (pA p) ++ ", " ++ show (pZ p) ++ nl ++ "2" ++ nl ++
     show (ps_sigma_x psx) ++ ", " ++ show (lit 1000 * ps_sigma_a psx) ++ ", 0, 0, 0" ++ nl ++ "2" ++ nl ++
     show (ps_sigma_x psy) ++ ", " ++ show (lit 1000 * ps_sigma_a psy) ++ ", 0, 0, 0" ++ nl ++ "1" ++ nl ++ "0,  0, 0, 0, 0")%string.
  (** convert.h:59-73, the body of the loop *)
  Definition mocadi_block (m : Material F) : outcome string :=
    az <- mocadi_layer m ;;
    Ok ("*******" ++ nl ++ "MATTER" ++ nl ++ show (fst az) ++ ", " ++ show_int (snd az) ++ ", " ++ show (m_rho m * lit 1000.0) ++
        nl ++ "2," ++ show (thickness_cm m) ++ nl ++ "0." ++ nl ++ "0.,0.,0." ++ nl ++ "1,1,0" ++ nl ++ "0,0,0,0" ++ nl)%string.
  Fixpoint mocadi_blocks (l : Layers F) : outcome string :=
    match l with
    | [] => Ok ""
    | m :: l' => b <- mocadi_block m ;; r <- mocadi_blocks l' ;; Ok (b ++ r)%string
    end.
  (** convert.h:49-77: what is written and returned; [opened] is the result of opening the file *)
  Definition save_mocadi (opened : bool) (p : Projectile F) (layers : Layers F) (psx psy : Phasespace F) : outcome (bool * string) :=
    if negb opened then Ok (false, "")
    else
      bs <- mocadi_blocks layers ;;
      Ok (true, (mocadi_header ++ mocadi_beam p psx psy ++ bs ++ "ERWARTUNGSWERTE" ++ nl ++ "SAVE" ++ nl ++ "END")%string).
End Convert.
