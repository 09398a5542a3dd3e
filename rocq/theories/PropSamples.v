(** * C62: the three input files shipped with the calculator (bin/c1.js, bin/c2.js, bin/c3.js), read in double precision *)
From Coq Require Import ZArith Ascii String List Bool Floats.
From Verif Require Import Num NumF Structures Calculations Storage Catima NucData Convert Calculator CalculatorMain PropProgram.
Import ListNotations.
Local Open Scope string_scope.
Local Open Scope list_scope.
Local Open Scope float_scope.

(** ** the files as JSON values; numbers with a decimal point are doubles *)
Definition two_layers : json float :=
  JArray [JObject [("A", JFloat 12.0107); ("Z", JInt 6); ("thickness", JFloat 1.0)];
          JObject [("A", JFloat 55.845); ("Z", JInt 26); ("density", JFloat 7.8); ("thickness", JFloat 0.05)]].
Definition steps : json float := JObject [("min", JInt 100); ("max", JInt 1000); ("step", JInt 100)].
Definition ion : json float := JArray [JFloat 11.99671; JInt 6].
Definition c1_plain : list (string * json float) := [("projectile", ion); ("energy", JInt 1000); ("material", two_layers)].
Definition c1 : json float := JObject (c1_plain ++ [("config", JString "atimav1.4")]).
Definition c2 : json float := JObject [("projectile", ion); ("energy", steps); ("material", two_layers)].
Definition c3 : json float :=
  JObject [("projectile", ion); ("energy", steps);
           ("material", JObject [("A", JInt 12); ("Z", JInt 6); ("density", JFloat 2.0); ("thickness", JFloat 1.0)])].

(** ** what the program makes of them *)
Definition carbon_ion : Projectile float := mkProj 11.99671 6 0 0.
Definition foil (rho th a : float) (z : Z) : Material float := mkMat rho th a 0 [mkTarget a z 1].
Definition hundreds : list float := [100; 200; 300; 400; 500; 600; 700; 800; 900; 1000].

Section Samples.
  Variable lm : Libm.
  Variable junk : nat -> float * float.
  Variable show : float -> string.
  Variable stod : string -> option float.
  Let read := @read_all float (NumF lm) show stod.

  Theorem C62_sample_files :
    read (Parsed c1) = Ok (("using config: Atima v1.4" ++ nl)%string,
      Some (carbon_ion, [1000], [foil 2 1 12.0107 6; foil 7.8 0.05 55.845 26], parse_config (N:=NumF lm) Atima14)) /\
    read (Parsed c2) = Ok (""%string, Some (carbon_ion, hundreds, [foil 2 1 12.0107 6; foil 7.8 0.05 55.845 26], parse_config (N:=NumF lm) NoConfig)) /\
    read (Parsed c3) = Ok (""%string, Some (carbon_ion, hundreds, [foil 2 1 12 6], parse_config (N:=NumF lm) NoConfig)).
  Proof.
    split; [|split]; vm_compute; reflexivity.
  Qed.
  (** the first file asks for the effective charge of ATIMA 1.4: all it gets is the line that says so *)
  Theorem C62_sample_config w :
    calculator (N:=NumF lm) junk show stod (Some (Parsed c1)) w =
    match calculator (N:=NumF lm) junk show stod (Some (Parsed (JObject c1_plain))) w with
    | Ok (out, code, w') => Ok ((("using config: Atima v1.4" ++ nl) ++ out)%string, code, w')
    | UB why => UB why
    end.
  Proof.
    assert (P : read (Parsed (JObject c1_plain)) =
      Ok (""%string, Some (carbon_ion, [1000], [foil 2 1 12.0107 6; foil 7.8 0.05 55.845 26], parse_config (N:=NumF lm) NoConfig)))
      by (vm_compute; reflexivity).
    destruct C62_sample_files as (E & _). unfold read in E, P. unfold calculator. rewrite E, P. cbn [bind fst snd].
    destruct (energy_lines junk show carbon_ion _ _ w) as [[t w1]|]; reflexivity.
  Qed.

  (** the second and the third print ten blocks or are undefined *)
  Theorem C62_sample_blocks w f : f = c2 \/ f = c3 ->
    (exists why, calculator (N:=NumF lm) junk show stod (Some (Parsed f)) w = UB why) \/
    exists ls rs w', length rs = 10%nat /\
      calculator (N:=NumF lm) junk show stod (Some (Parsed f)) w =
        Ok (all_lines (full_report (N:=NumF lm) show 11.99671 6 ls hundreds rs), 1%Z, w').
  Proof.
    intros H. destruct (calculator (N:=NumF lm) junk show stod (Some (Parsed f)) w) as [[[out code] w']|why] eqn:E; [right | left; exists why; reflexivity].
    assert (R' : exists ls c, read (Parsed f) = Ok (""%string, Some (carbon_ion, hundreds, ls, c)) /\ ls <> []).
    { destruct C62_sample_files as (_ & E2 & E3).
      destruct H as [-> | ->]; do 2 eexists; (split; [first [exact E2 | exact E3] | discriminate]). }
    destruct R' as (ls & c & R' & NE).
    destruct (C62_exit junk show stod _ _ _ _ _ E) as [(-> & _) | (-> & pre & f' & p & es & ls' & c' & rs & Ef & Er & _ & _ & _ & L & ->)].
    - exfalso. unfold calculator in E. unfold read in R'. rewrite R' in E. cbn [bind fst snd] in E.
      destruct ls as [|m ls]; [congruence|]. unfold hundreds in E.
      destruct (energy_lines _ _ _ _ _ _) as [[t w1]|]; cbn [bind] in E; discriminate E.
    - injection Ef as <-. unfold read in R'. rewrite R' in Er. injection Er as <- <- <- <- <-.
      exists ls, rs, w'. split; [exact L | reflexivity].
  Qed.
End Samples.
Print Assumptions C62_sample_files.
Print Assumptions C62_sample_config.
Print Assumptions C62_sample_blocks.
