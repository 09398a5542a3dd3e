(** * C62: the calculator program, from the parsed JSON text to the text printed and the exit status *)
From Coq Require Import Reals Lra Lia ZArith Ascii String List Bool.
From Verif Require Import Num Structures Calculations Storage Catima NucData Convert Calculator CalculatorMain.
Import ListNotations.
Local Open Scope string_scope.
Local Open Scope list_scope.

(** ** what an input says, independently of the order and number of the members *)
Section Meaning.
Context {F : Type} {N : Num F}.
Variable stod : string -> option F.

Definition number (j : json F) (x : F) : Prop := j = JFloat x \/ exists z, j = JInt z /\ x = ofZ z.
Definition integer (j : json F) (z : Z) : Prop :=
  (j = JInt z /\ (-2147483648 <= z < 2147483648)%Z) \/ (exists x, j = JFloat x /\ fto_int x = Some z) \/
  (j = JBool true /\ z = 1%Z) \/ (j = JBool false /\ z = 0%Z).
Inductive optional {A} (P : json F -> A -> Prop) : option (json F) -> option A -> Prop :=
| opt_absent : optional P None None
| opt_present j a : P j a -> optional P (Some j) (Some a).
(** the numbers of an array; other entries are passed over *)
Inductive numbers_in : list (json F) -> list F -> Prop :=
| no_numbers : numbers_in [] []
| a_number j x l xs : number j x -> numbers_in l xs -> numbers_in (j :: l) (x :: xs)
| not_a_number j l xs : (forall x, ~ number j x) -> numbers_in l xs -> numbers_in (j :: l) xs.
Definition energy_says (j : json F) (i : energy_input F) : Prop :=
  match i with
  | ENumber x => number j x \/ exists s, j = JString s /\ stod s = Some x
  | EArray xs => exists l, j = JArray l /\ numbers_in l xs
  | EGrid lo hi num step => exists l a b, j = JObject l /\ field j "min" = Some a /\ number a lo /\ field j "max" = Some b /\ number b hi /\
      optional integer (field j "num") num /\ optional integer (field j "step") step
  end.
Definition material_says (j : json F) (i : material_input F) : Prop :=
  (exists l, j = JObject l) /\
  optional number (field j "A") (mi_A i) /\ optional integer (field j "Z") (mi_Z i) /\ optional number (field j "density") (mi_density i) /\
  optional number (field j "thickness") (mi_thickness i) /\ optional number (field j "Ipot") (mi_Ipot i).
Definition config_says (o : option (json F)) (i : config_input) : Prop :=
  match i with
  | Atima13 => o = Some (JString "atimav1.3")
  | Atima14 => o = Some (JString "atimav1.4")
  | NoConfig => o <> Some (JString "atimav1.3") /\ o <> Some (JString "atimav1.4")
  end.
Definition says (j : json F) (i : input F) : Prop :=
  (exists a z l, field j "projectile" = Some (JArray (a :: z :: l)) /\ number a (in_A i) /\ number z (in_Z i)) /\
  (exists e, field j "energy" = Some e /\ energy_says e (in_energy i)) /\
  (exists m, field j "material" = Some m /\
     ((exists l, m = JArray l /\ Forall2 material_says l (in_materials i)) \/ (exists mi, material_says m mi /\ in_materials i = [mi]))) /\
  config_says (field j "config") (in_config i).
End Meaning.

(** ** the report *)
Section Report.
Context {F : Type} {N : Num F}.
Variable show : F -> string.
Local Open Scope string_scope.
Definition all_lines (l : list string) : string := String.concat "" (map (fun s => s ++ nl) l).
Definition entry (name : string) (v : F) (unit : string) : string := tab ++ name ++ " = " ++ show v ++ unit.
Definition material_report (i : nat) (r : Result F) : list string :=
  [ "material #" ++ show_int (Z.of_nat i) ++ ":"; entry "Ein" (r_Ein r) " MeV/u"; entry "Eout" (r_Eout r) " MeV/u"; entry "sigma_E" (r_sigma_E r) " MeV";
    entry "Eloss" (r_Eloss r) " MeV"; entry "range" (r_range r) " g/cm2"; entry "sigma_r" (r_sigma_r r) " g/cm2"; entry "sigma_a" (r_sigma_a r) " rad";
    entry "dEdx(Ein)" (r_dEdxi r) " MeV/g/cm2"; entry "TOF" (r_tof r) " ns" ].
Definition total_report (A : F) (t : Result F) : list string :=
  [ "total:"; entry "Eout" (r_Eout t) " MeV/u"; entry "Beta" (beta_from_T (r_Eout t)) ""; entry "Gamma" (gamma_from_T (r_Eout t)) "";
    entry "P" (p_from_T (r_Eout t) A) " MeV/c"; entry "Eloss" (r_Eloss t) " MeV"; entry "sigma_E" (r_sigma_E t) " MeV";
    entry "sigma_a" (r_sigma_a t) " rad"; entry "TOF" (r_tof t) " ns" ].
Definition numbered {A B} (f : nat -> A -> B) (l : list A) : list B := map (fun ix => f (fst ix) (snd ix)) (combine (seq 0 (length l)) l).
Definition energy_report (A e : F) (r : MultiResult F) : list string :=
  ("-------- T = " ++ show e ++ " MeV/u -------") :: concat (numbered material_report (mr_results r)) ++ total_report A (mr_total r).
Definition layer_report (i : nat) (m : Material F) : string :=
  "#" ++ show_int (Z.of_nat i) ++ ": density = " ++ show (m_rho m) ++ " g/cm3, thickness = " ++ show (m_th m) ++ " g/cm2".
Definition full_report (A Z : F) (ls : Layers F) (es : list F) (rs : list (MultiResult F)) : list string :=
  [ "******** CAtima calculator ********"; "Projectile: A = " ++ show A ++ ", Z = " ++ show Z; "Materials:" ]
  ++ numbered layer_report ls ++ concat (map (fun er => energy_report A (fst er) (snd er)) (combine es rs)).
End Report.

(** ** lemmas *)
Lemma sapp_assoc (a b c : string) : ((a ++ b) ++ c = a ++ (b ++ c))%string.
Proof. induction a as [|x a IH]; [reflexivity|cbn; rewrite IH; reflexivity]. Qed.
Lemma sapp_nil (a : string) : (a ++ "" = a)%string.
Proof. induction a as [|x a IH]; [reflexivity|cbn; rewrite IH; reflexivity]. Qed.
Lemma concat_cons (x : string) l : String.concat "" (x :: l) = (x ++ String.concat "" l)%string.
Proof. cbn. destruct l; [symmetry; apply sapp_nil|reflexivity]. Qed.
Lemma concat_sapp l l' : String.concat "" (l ++ l') = (String.concat "" l ++ String.concat "" l')%string.
Proof. induction l as [|x l IH]; [reflexivity|]. cbn [app]. rewrite !concat_cons, IH, sapp_assoc. reflexivity. Qed.
Lemma all_lines_cons x l : all_lines (x :: l) = (x ++ nl ++ all_lines l)%string.
Proof. unfold all_lines. cbn [map]. rewrite concat_cons, sapp_assoc. reflexivity. Qed.
Lemma all_lines_app l l' : all_lines (l ++ l') = (all_lines l ++ all_lines l')%string.
Proof. unfold all_lines. rewrite map_app. apply concat_sapp. Qed.

Section Generic.
Context {F : Type} {N : Num F}.
Variable junk : nat -> F * F.
Variable show : F -> string.
Variable stod : string -> option F.
Notation prog := (calculator junk show stod).
Notation read := (read_all show stod).

Lemma rbind_ret {A B} (a : A) (k : A -> run B) : rbind (ret a) k = k a.
Proof. unfold rbind, ret. cbn [bind fst snd]. destruct (k a) as [[s o]|]; reflexivity. Qed.
Lemma rbind_throw {A B} (k : A -> run B) : rbind throw k = throw.
Proof. reflexivity. Qed.

(** the numbered lists as loops *)
Lemma numbered_from {A B} (f : nat -> A -> B) l n :
  map (fun ix => f (fst ix) (snd ix)) (combine (seq n (length l)) l) =
  (fix go n l := match l with [] => [] | x :: l' => f n x :: go (S n) l' end) n l.
Proof. revert n. induction l as [|x l IH]; intros n; [reflexivity|]. cbn [length seq combine map fst snd]. rewrite IH. reflexivity. Qed.
Lemma layer_lines_report ls n : layer_lines show n ls =
  all_lines (map (fun ix => layer_report show (fst ix) (snd ix)) (combine (seq n (length ls)) ls)).
Proof.
  revert n. induction ls as [|m ls IH]; intros n; [reflexivity|]. cbn [layer_lines length seq combine map fst snd].
  rewrite all_lines_cons, IH. unfold layer_report. rewrite !sapp_assoc. reflexivity.
Qed.
Lemma result_lines_report rs n : result_lines show n rs =
  all_lines (concat (map (fun ix => material_report show (fst ix) (snd ix)) (combine (seq n (length rs)) rs))).
Proof.
  revert n. induction rs as [|r rs IH]; intros n; [reflexivity|]. cbn [result_lines length seq combine map fst snd concat].
  rewrite all_lines_app, IH. unfold material_report, entry. rewrite !all_lines_cons, !sapp_assoc. reflexivity.
Qed.
Lemma total_lines_report p t : total_lines show p t = all_lines (total_report show (pA p) t).
Proof. unfold total_lines, total_report, entry. rewrite !all_lines_cons, !sapp_assoc, ?sapp_nil. reflexivity. Qed.

Lemma energy_lines_report p ls es w : energy_lines junk show p ls es w =
  bind (run_energies junk p ls es w) (fun x => Ok (all_lines (concat (map (fun er => energy_report show (pA p) (fst er) (snd er)) (combine es (fst x)))), snd x)).
Proof.
  revert w. induction es as [|e es IH]; intros w; [reflexivity|]. cbn [energy_lines run_energies].
  destruct (calculate_layers junk (at_T p e) Phasespace0 ls (w_default w) w) as [[r w1]|]; cbn [bind]; [|reflexivity].
  rewrite IH. destruct (run_energies junk p ls es w1) as [[rs w2]|]; cbn [bind fst snd]; [|reflexivity].
  cbn [combine map concat fst snd]. f_equal. f_equal. rewrite all_lines_app. unfold energy_report. rewrite all_lines_cons, all_lines_app.
  unfold numbered. rewrite <- result_lines_report, <- total_lines_report. rewrite !sapp_assoc. reflexivity.
Qed.
Lemma title_report p ls : title_lines show p ls =
  all_lines ([ "******** CAtima calculator ********"; ("Projectile: A = " ++ show (pA p) ++ ", Z = " ++ show (pZ p))%string; "Materials:" ] ++ numbered (layer_report show) ls).
Proof. unfold title_lines, numbered. rewrite layer_lines_report, all_lines_app, !all_lines_cons, !sapp_assoc. reflexivity. Qed.

Lemma run_length p ls es w rs w' : run_energies junk p ls es w = Ok (rs, w') -> length rs = length es.
Proof.
  revert w rs w'. induction es as [|x es IH]; intros w rs w1 RE; cbn [run_energies] in RE; [injection RE as <- <-; reflexivity|].
  destruct (calculate_layers junk (at_T p x) Phasespace0 ls (w_default w) w) as [[r w2]|]; cbn [bind] in RE; [|discriminate].
  destruct (run_energies junk p ls es w2) as [[rs' w3]|] eqn:R3; cbn [bind] in RE; [|discriminate]. injection RE as <- <-. cbn [length]. rewrite (IH _ _ _ R3). reflexivity.
Qed.

(** ** the exit status *)
Theorem C62_exit arg w out code w' : prog arg w = Ok (out, code, w') ->
  (code = 0%Z /\ w' = w /\ exists pre msg, out = (pre ++ msg ++ nl)%string /\
     In msg ["usage: catima_calculator config_file.json"; "Could not load the config file"; "no material specified"; "no energy specified"]%string) \/
  (code = 1%Z /\ exists pre f p es ls c rs, arg = Some f /\ read f = Ok (pre, Some (p, es, ls, c)) /\ es <> [] /\ ls <> [] /\
     run_energies junk p ls es w = Ok (rs, w') /\ length rs = length es /\ out = (pre ++ all_lines (full_report show (pA p) (pZ p) ls es rs))%string).
Proof.
  unfold calculator. destruct arg as [f|]; [|intros E; injection E as <- <- <-; left; repeat split; exists "", "usage: catima_calculator config_file.json"%string; split; [reflexivity|left; reflexivity]].
  destruct (read f) as [[pre o]|] eqn:R; cbn [bind fst snd]; [|discriminate].
  destruct o as [[[[p es] ls] c]|].
  2:{ intros E. injection E as <- <- <-. left. repeat split. exists pre, "Could not load the config file"%string. split; [reflexivity|right; left; reflexivity]. }
  destruct ls as [|m ls]; [intros E; injection E as <- <- <-; left; repeat split; exists pre, "no material specified"%string; split; [reflexivity|do 2 right; left; reflexivity]|].
  destruct es as [|e es]; [intros E; injection E as <- <- <-; left; repeat split; exists pre, "no energy specified"%string; split; [reflexivity|do 3 right; left; reflexivity]|].
  rewrite energy_lines_report. destruct (run_energies junk p (m :: ls) (e :: es) w) as [[rs w1]|] eqn:RE; cbn [bind fst snd]; [|discriminate].
  intros E. injection E as <- <- <-. right. split; [reflexivity|]. exists pre, f, p, (e :: es), (m :: ls), c, rs.
  split; [reflexivity|]. split; [exact R|]. split; [discriminate|]. split; [discriminate|]. split; [exact RE|]. split.
  - exact (run_length p (m :: ls) (e :: es) w rs w1 RE).
  - unfold full_report. rewrite app_assoc, all_lines_app, <- title_report. reflexivity.
Qed.
Print Assumptions C62_exit.

(** ** reading *)
Lemma get_number j x : number j x -> get_double j = ret x.
Proof. intros [-> | (z & -> & ->)]; reflexivity. Qed.
Lemma wrap_id z : (-2147483648 <= z < 2147483648)%Z -> wrap32 z = z.
Proof. intros H. unfold wrap32. rewrite Z.mod_small; lia. Qed.
Lemma get_integer j z : integer j z -> get_int j = ret z.
Proof.
  intros [[-> B] | [(x & -> & E) | [[-> ->] | [-> ->]]]]; cbn [get_int]; [rewrite (wrap_id _ B)|rewrite E| |]; reflexivity.
Qed.
Lemma get_opt {A} (P : json F -> A -> Prop) get d j k o : (forall e a, P e a -> get e = ret a) -> optional P (field j k) o ->
  get_or get d j k = ret match o with Some a => a | None => d end.
Proof. intros G H. unfold get_or. inversion H as [E1 E2|e a P' E1 E2]; [reflexivity|]. apply G. exact P'. Qed.
Lemma number_test j x : number j x -> is_number j = true.
Proof. intros [-> | (z & -> & _)]; reflexivity. Qed.
Lemma not_number_test j : (forall x, ~ number j x) -> is_number j = false.
Proof.
  intros H. destruct j as [|b|z|x|s|l|l]; try reflexivity; exfalso.
  - apply (H (ofZ z)). right. exists z. split; reflexivity.
  - apply (H x). left. reflexivity.
Qed.
Lemma read_numbers_in l xs : numbers_in l xs -> read_numbers l = ret xs.
Proof.
  induction 1 as [|j x l xs Nx _ IH|j l xs Nx _ IH]; [reflexivity| |]; cbn [read_numbers].
  - rewrite (number_test j x Nx), (get_number j x Nx), IH, !rbind_ret. reflexivity.
  - rewrite (not_number_test j Nx). exact IH.
Qed.
Lemma lift_rbind {A B} (m : outcome A) (k : A -> run B) : rbind (x <- m ;; ret x) k = (x <- m ;; k x).
Proof. destruct m as [a|]; [cbn [bind]; apply rbind_ret|reflexivity]. Qed.
Lemma read_energy_says j e i : field j "energy" = Some e -> energy_says stod e i -> read_energy stod j = (es <- energies i ;; ret es).
Proof.
  intros E S. unfold read_energy. rewrite E. destruct i as [x|xs|lo hi num step]; cbn [energy_says energies bind] in *.
  - destruct S as [Nx|(s & -> & ->)]; [|reflexivity]. rewrite (get_number e x Nx), rbind_ret. destruct Nx as [-> | (z & -> & _)]; reflexivity.
  - destruct S as (l & -> & L). apply read_numbers_in. exact L.
  - destruct S as (l & a & b & EO & FA & NA & FB & NB & ON & OS). rewrite EO at 1. unfold read_grid. rewrite FA, FB. rewrite !(get_number _ _ NA), !(get_number _ _ NB).
    unfold grid_num. inversion ON as [EN EN'|n nz PN EN EN']; inversion OS as [ES ES'|s sz PS ES ES']; rewrite ?rbind_ret; [reflexivity| | |].
    + rewrite (get_integer _ _ PS), rbind_ret, lift_rbind. destruct (cast (fto_int _)) as [q|]; cbn [bind]; [|reflexivity]. rewrite rbind_ret. reflexivity.
    + rewrite (get_integer _ _ PN), rbind_ret. reflexivity.
    + rewrite (get_integer _ _ PS), rbind_ret, lift_rbind. destruct (cast (fto_int _)) as [q|]; cbn [bind]; [|reflexivity]. rewrite (get_integer _ _ PN), rbind_ret. reflexivity.
Qed.
(** the record-level material, and some warnings *)
Lemma read_material_says j mi : material_says j mi ->
  exists warn, read_material show j = Ok (warn, json_material mi).
Proof.
  intros ((l & EJ) & HA & HZ & HD & HT & HI). unfold read_material, json_material, opt.
  rewrite (get_opt number get_double _ _ _ _ get_number HD), rbind_ret.
  rewrite (get_opt number get_double _ _ _ _ get_number HT), rbind_ret.
  rewrite (get_opt number get_double _ _ _ _ get_number HI), rbind_ret.
  rewrite (get_opt number get_double _ _ _ _ get_number HA), rbind_ret.
  rewrite (get_opt integer get_int _ _ _ _ get_integer HZ), rbind_ret.
  set (z := match mi_Z mi with Some z => z | None => 0%Z end). set (d := match mi_density mi with Some v => v | None => lit 0.0 end).
  set (th := match mi_thickness mi with Some v => v | None => lit 0.0 end). cbv zeta.
  destruct (z <=? 0)%Z; [eexists; reflexivity|].
  destruct (fleb d (lit 0)).
  - destruct (fleb (element_density z) (lit 0)); destruct (fleb th (lit 0)); destruct (z <? 200)%Z; unfold catch, rbind, ret, print; cbn [bind fst snd]; eexists; reflexivity.
  - destruct (fleb th (lit 0)); destruct (z <? 200)%Z; unfold catch, rbind, ret, print; cbn [bind fst snd]; eexists; reflexivity.
Qed.
Lemma read_layers_says l mis : Forall2 material_says l mis ->
  exists warn, read_layers show l = Ok (warn, all_some (map json_material mis)).
Proof.
  induction 1 as [|j mi l mis H _ (w2 & IH)]; [eexists; reflexivity|]. destruct (read_material_says j mi H) as (w1 & E).
  cbn [map all_some]. destruct H as ((kv & ->) & _). cbn [read_layers]. rewrite E. unfold rbind at 1. cbn [bind fst snd].
  destruct (json_material mi) as [m|]; [|eexists; reflexivity]. rewrite IH. unfold rbind. cbn [bind fst snd]. destruct (all_some (map json_material mis)); cbn [bind fst snd option_map]; eexists; reflexivity.
Qed.
Lemma read_materials_says j m mis : field j "material" = Some m ->
  (exists l, m = JArray l /\ Forall2 material_says l mis) \/ (exists mi, material_says m mi /\ mis = [mi]) ->
  exists warn, read_materials show j = Ok (warn, all_some (map json_material mis)).
Proof.
  intros E [(l & -> & H) | (mi & H & ->)]; unfold read_materials; rewrite E; [apply read_layers_says; exact H|].
  destruct (read_material_says m mi H) as (w1 & E1). destruct H as ((kv & ->) & _). rewrite E1. cbn [map all_some]. unfold rbind. cbn [bind fst snd].
  destruct (json_material mi); eexists; reflexivity.
Qed.
Lemma read_config_says j i : config_says (field j "config") i -> exists line, read_config j = Ok (line, Some (parse_config (F:=F) i)).
Proof.
  unfold read_config. destruct i; cbn [config_says].
  - intros [H1 H2]. destruct (field j "config") as [[| | | |s| |]|]; try (eexists; reflexivity).
    destruct (String.eqb_spec s "atimav1.3") as [->|_]; [contradiction|]. destruct (String.eqb_spec s "atimav1.4") as [->|_]; [contradiction|]. eexists. reflexivity.
  - intros ->. eexists. reflexivity.
  - intros ->. eexists. reflexivity.
Qed.

(** ** the program does what the record-level model of C49 does, and prints it *)
Theorem C62_report j i w : says stod j i ->
  match main_ junk i w with
  | UB why => prog (Some (Parsed j)) w = UB why
  | Ok (None, w') => w' = w /\ exists out, prog (Some (Parsed j)) w = Ok (out, 0%Z, w)
  | Ok (Some rs, w') => exists warn ls es,
      all_some (map json_material (in_materials i)) = Some ls /\ energies (in_energy i) = Ok es /\ length rs = length es /\
      prog (Some (Parsed j)) w = Ok ((warn ++ all_lines (full_report show (in_A i) (in_Z i) ls es rs))%string, 1%Z, w')
  end.
Proof.
  intros ((a & z & l & EP & NA & NZ) & (e & EE & SE) & (m & EM & SM) & SC).
  pose proof (read_energy_says j e (in_energy i) EE SE) as RE. destruct (read_materials_says j m (in_materials i) EM SM) as (w1 & RM).
  destruct (read_config_says j (in_config i) SC) as (line & RC).
  assert (RA : read_all show stod (Parsed j) = bind (energies (in_energy i)) (fun es =>
    match all_some (map json_material (in_materials i)) with
    | None => Ok (w1, None)
    | Some ls => Ok ((w1 ++ line)%string, Some (mkProj (in_A i) (in_Z i) (lit 0) (lit 0), es, ls, parse_config (in_config i))) end)).
  { unfold read_all. cbn [load_json]. rewrite rbind_ret. unfold read_projectile. rewrite EP, (get_number a _ NA), (get_number z _ NZ), !rbind_ret, RE, lift_rbind.
    destruct (energies (in_energy i)) as [es|]; [|reflexivity]. cbn [bind]. rewrite RM. unfold rbind at 1. cbn [bind fst snd].
    destruct (all_some (map json_material (in_materials i))) as [ls|]; [|reflexivity]. rewrite RC. unfold rbind, ret. cbn [bind fst snd]. rewrite sapp_nil. reflexivity. }
  unfold main_. unfold calculator. rewrite RA. destruct (energies (in_energy i)) as [es|]; cbn [bind]; [|reflexivity].
  destruct (all_some (map json_material (in_materials i))) as [ls|]; cbn [fst snd bind]; [|split; [reflexivity|eexists; reflexivity]].
  destruct ls as [|m1 ls]; [split; [reflexivity|eexists; reflexivity]|]. destruct es as [|e1 es]; [split; [reflexivity|eexists; reflexivity]|].
  rewrite energy_lines_report. set (p := mkProj (in_A i) (in_Z i) (lit 0) (lit 0)).
  destruct (run_energies junk p (m1 :: ls) (e1 :: es) w) as [[rs w2]|] eqn:RR; cbn [bind fst snd]; [|reflexivity].
  exists (w1 ++ line)%string, (m1 :: ls), (e1 :: es). split; [reflexivity|]. split; [reflexivity|]. split.
  - apply (run_length p (m1 :: ls) (e1 :: es) w rs w2 RR).
  - unfold full_report. rewrite app_assoc, all_lines_app. change (in_A i) with (pA p). change (in_Z i) with (pZ p). rewrite <- title_report. reflexivity.
Qed.
Print Assumptions C62_report.

(** ** order of the members, members with other names *)
Definition known : list string := ["projectile"; "energy"; "material"; "config"; "min"; "max"; "num"; "step"; "A"; "Z"; "density"; "thickness"; "Ipot"].
Inductive orel {A} (P : A -> A -> Prop) : option A -> option A -> Prop :=
| orel_none : orel P None None
| orel_some a b : P a b -> orel P (Some a) (Some b).
Inductive alike : json F -> json F -> Prop :=
| alike_refl j : alike j j
| alike_array l l' : Forall2 alike l l' -> alike (JArray l) (JArray l')
| alike_object l l' : (forall k, In k known -> orel alike (assoc k l) (assoc k l')) -> alike (JObject l) (JObject l').
Lemma alike_field j j' k : alike j j' -> In k known -> orel alike (field j k) (field j' k).
Proof.
  intros H K. inversion H as [x E1 E2|l l' L E1 E2|l l' L E1 E2]; cbn [field]; [|constructor|apply L; exact K].
  destruct (field j' k); constructor. apply alike_refl.
Qed.
Lemma alike_double j j' : alike j j' -> get_double (F:=F) j = get_double j'.
Proof. intros H. inversion H; reflexivity. Qed.
Lemma alike_int j j' : alike j j' -> get_int (F:=F) j = get_int j'.
Proof. intros H. inversion H; reflexivity. Qed.
Lemma alike_number j j' : alike j j' -> is_number (F:=F) j = is_number j'.
Proof. intros H. inversion H; reflexivity. Qed.
Lemma alike_get {A} (get : json F -> run A) d j j' k : (forall a b, alike a b -> get a = get b) -> alike j j' -> In k known -> get_or get d j k = get_or get d j' k.
Proof. intros G H K. unfold get_or. destruct (alike_field j j' k H K) as [|a b P]; [reflexivity|apply G; exact P]. Qed.
Ltac is_known := unfold known; cbn [In]; tauto.
Lemma alike_material j j' : alike j j' -> read_material show j = read_material show j'.
Proof.
  intros H. unfold read_material.
  rewrite (alike_get get_double (lit 0.0) j j' "density" alike_double H) by is_known.
  rewrite (alike_get get_double (lit 0.0) j j' "thickness" alike_double H) by is_known.
  rewrite (alike_get get_double (lit 0.0) j j' "Ipot" alike_double H) by is_known.
  rewrite (alike_get get_double (lit 0.0) j j' "A" alike_double H) by is_known.
  rewrite (alike_get get_int 0%Z j j' "Z" alike_int H) by is_known. reflexivity.
Qed.
Lemma alike_layers l l' : Forall2 alike l l' -> read_layers show l = read_layers show l'.
Proof.
  induction 1 as [|j j' l l' H _ IH]; [reflexivity|]. cbn [read_layers]. rewrite IH.
  inversion H as [x E1 E2|k k' L E1 E2|k k' L E1 E2]; [reflexivity|reflexivity|]. subst. rewrite (alike_material _ _ H). reflexivity.
Qed.
Lemma alike_numbers l l' : Forall2 alike l l' -> read_numbers (F:=F) l = read_numbers l'.
Proof. induction 1 as [|j j' l l' H _ IH]; [reflexivity|]. cbn [read_numbers]. rewrite IH, (alike_number _ _ H), (alike_double _ _ H). reflexivity. Qed.
Lemma alike_grid j j' : alike j j' -> read_grid (F:=F) j = read_grid j'.
Proof.
  intros H. unfold read_grid.
  destruct (alike_field j j' "min" H ltac:(is_known)) as [|a a' PA]; [reflexivity|].
  destruct (alike_field j j' "max" H ltac:(is_known)) as [|b b' PB]; [reflexivity|].
  destruct (alike_field j j' "num" H ltac:(is_known)) as [|n n' PN]; destruct (alike_field j j' "step" H ltac:(is_known)) as [|s s' PS];
    rewrite ?(alike_double _ _ PA), ?(alike_double _ _ PB), ?(alike_int _ _ PN), ?(alike_int _ _ PS); reflexivity.
Qed.
Lemma forall2_nth {A B} (P : A -> B -> Prop) l l' : Forall2 P l l' ->
  match l, l' with [], [] => True | [a], [b] => P a b | a :: c :: _, b :: d :: _ => P a b /\ P c d | _, _ => False end.
Proof. intros H. destruct H as [|a b l l' Q H]; [exact Logic.I|]. destruct H as [|c d l l' Q2 H]; [exact Q|split; assumption]. Qed.
Theorem C62_alike j j' w : alike j j' -> prog (Some (Parsed j)) w = prog (Some (Parsed j')) w.
Proof.
  intros H. assert (R : read (Parsed j) = read (Parsed j')); [|unfold calculator; rewrite R; reflexivity].
  unfold read_all. cbn [load_json]. rewrite !rbind_ret.
  assert (RP : read_projectile (F:=F) j = read_projectile j').
  { unfold read_projectile. destruct (alike_field j j' "projectile" H ltac:(is_known)) as [|a b P]; [reflexivity|].
    inversion P as [x E1 E2|l l' L E1 E2|l l' L E1 E2]; try reflexivity. apply forall2_nth in L.
    destruct l as [|a1 [|a2 l]]; destruct l' as [|b1 [|b2 l']]; try contradiction; [reflexivity| |].
    - rewrite (alike_double _ _ L). reflexivity.
    - destruct L as [L1 L2]. rewrite (alike_double _ _ L1), (alike_double _ _ L2). reflexivity. }
  assert (RE : read_energy stod j = read_energy stod j').
  { unfold read_energy. destruct (alike_field j j' "energy" H ltac:(is_known)) as [|a b P]; [reflexivity|].
    inversion P as [x E1 E2|l l' L E1 E2|l l' L E1 E2]; [reflexivity|apply alike_numbers; exact L|]. apply alike_grid. subst. exact P. }
  assert (RM : read_materials show j = read_materials show j').
  { unfold read_materials. destruct (alike_field j j' "material" H ltac:(is_known)) as [|a b P]; [reflexivity|].
    inversion P as [x E1 E2|l l' L E1 E2|l l' L E1 E2]; [reflexivity|apply alike_layers; exact L|]. subst. rewrite (alike_material _ _ P). reflexivity. }
  assert (RC : read_config (F:=F) j = read_config j').
  { unfold read_config. destruct (alike_field j j' "config" H ltac:(is_known)) as [|a b P]; [reflexivity|].
    inversion P as [x E1 E2|l l' L E1 E2|l l' L E1 E2]; reflexivity. }
  rewrite RP, RE, RM, RC. reflexivity.
Qed.
Print Assumptions C62_alike.

(** ** a missing entry or file: the message, exit status 0, nothing computed *)
Definition load_error : string := ("Could not load the config file" ++ nl)%string.
Theorem C62_missing w :
  prog None w = Ok (("usage: catima_calculator config_file.json" ++ nl)%string, 0%Z, w) /\
  prog (Some Missing) w = Ok (load_error, 0%Z, w) /\
  prog (Some Unparsable) w = Ok (("JSON parsing error" ++ nl ++ load_error)%string, 0%Z, w) /\
  (forall j, field j "projectile" = None -> prog (Some (Parsed j)) w = Ok (load_error, 0%Z, w)) /\
  (forall j, field j "energy" = None -> prog (Some (Parsed j)) w = Ok (load_error, 0%Z, w)) /\
  (forall j, field j "material" = None -> prog (Some (Parsed j)) w = Ok (load_error, 0%Z, w) \/ prog (Some (Parsed j)) w = UB BadCast).
Proof.
  split; [reflexivity|]. split; [reflexivity|]. split; [reflexivity|].
  assert (P : forall j, read_projectile (F:=F) j = throw \/ exists p, read_projectile (F:=F) j = ret p).
  { intros j. unfold read_projectile. destruct (field j "projectile") as [[| | | | |l|]|]; try (right; eexists; reflexivity); [|left; reflexivity].
    assert (G : forall e, get_double (F:=F) e = throw \/ exists x, get_double (F:=F) e = ret x) by (intros [| | | | | |]; cbn; try (left; reflexivity); right; eexists; reflexivity).
    destruct l as [|a [|z l]]; [left; reflexivity| |].
    - destruct (G a) as [-> | (x & ->)]; [left; reflexivity|]. rewrite rbind_ret. left. reflexivity.
    - destruct (G a) as [-> | (x & ->)]; [left; reflexivity|]. rewrite rbind_ret.
      destruct (G z) as [-> | (y & ->)]; [left; reflexivity|]. rewrite rbind_ret. right. eexists. reflexivity. }
  assert (D : forall m : run (Projectile F * list F * Layers F * Config F), m = throw -> bind m (fun x => match snd x with
        | None => Ok ((fst x ++ "Could not load the config file" ++ nl)%string, 0%Z, w) | Some (p, es, ls, c) => match ls, es with
            | [], _ => Ok ((fst x ++ "no material specified" ++ nl)%string, 0%Z, w)
            | _, [] => Ok ((fst x ++ "no energy specified" ++ nl)%string, 0%Z, w)
            | _, _ => ' (s, w) <- energy_lines junk show p ls es w ;; Ok ((fst x ++ title_lines show p ls ++ s)%string, 1%Z, w) end end) = Ok (load_error, 0%Z, w)) by (intros m ->; reflexivity).
  split; [|split].
  - intros j E. apply D. unfold read_all. cbn [load_json]. rewrite rbind_ret. unfold read_projectile. rewrite E. reflexivity.
  - intros j E. apply D. unfold read_all. cbn [load_json]. rewrite rbind_ret. destruct (P j) as [-> | (p & ->)]; [reflexivity|]. rewrite rbind_ret. unfold read_energy. rewrite E. reflexivity.
  - intros j E.
    assert (G : forall e, get_double (F:=F) e = throw \/ exists x, get_double (F:=F) e = ret x) by (intros [| | | | | |]; cbn; try (left; reflexivity); right; eexists; reflexivity).
    assert (GI : forall e, get_int (F:=F) e = throw \/ (exists x, get_int (F:=F) e = ret x) \/ get_int (F:=F) e = UB BadCast).
    { intros [| |z|x| | |]; cbn; try (left; reflexivity); try (right; left; eexists; reflexivity). destruct (fto_int x); cbn; [right; left; eexists; reflexivity|right; right; reflexivity]. }
    assert (RE : read_energy stod j = throw \/ (exists es, read_energy stod j = ret es) \/ read_energy stod j = UB BadCast).
    { unfold read_energy. destruct (field j "energy") as [e|]; [|left; reflexivity]. destruct e as [|b|z|x|s|l|l]; try (right; left; eexists; reflexivity).
      - destruct (stod s); [right; left; eexists; reflexivity|left; reflexivity].
      - right. left. clear - F. induction l as [|e l (xs & IH)]; [eexists; reflexivity|]. cbn [read_numbers]. destruct e; cbn [is_number get_double]; rewrite ?rbind_ret, IH, ?rbind_ret; eexists; reflexivity.
      - unfold read_grid. destruct (field (JObject l) "min") as [a|]; [|right; left; eexists; reflexivity]. destruct (field (JObject l) "max") as [b|]; [|right; left; eexists; reflexivity].
        assert (X : forall num step, let m := (emin <-- get_double a ;; emax <-- get_double b ;;
            n <-- match step with Some s => st <-- get_int s ;; z <- cast (fto_int (lit 1 + (emax - emin) / ofZ st)%num) ;; ret z | None => ret 0%Z end ;;
            n <-- match num with Some k => get_int k | None => ret n end ;; ret (if (n >? 2)%Z then linspace_vector emin emax n else [])) in
            m = throw \/ (exists es, m = ret es) \/ m = UB BadCast).
        { intros num step. cbv zeta. destruct (G a) as [-> | (x & ->)]; [left; reflexivity|]. rewrite rbind_ret. destruct (G b) as [-> | (y & ->)]; [left; reflexivity|]. rewrite rbind_ret.
          destruct step as [s|].
          - destruct (GI s) as [-> | [(st & ->) | ->]]; [left; reflexivity| |right; right; reflexivity]. rewrite rbind_ret.
            destruct (fto_int (lit 1 + (y - x) / ofZ st)%num) as [q|]; cbn [cast bind]; [|right; right; reflexivity]. rewrite rbind_ret.
            destruct num as [k|]; [destruct (GI k) as [-> | [(n & ->) | ->]]; [left; reflexivity| |right; right; reflexivity]|]; rewrite rbind_ret; right; left; eexists; reflexivity.
          - rewrite rbind_ret. destruct num as [k|]; [destruct (GI k) as [-> | [(n & ->) | ->]]; [left; reflexivity| |right; right; reflexivity]|]; rewrite rbind_ret; right; left; eexists; reflexivity. }
        destruct (field (JObject l) "num") as [k|]; [apply (X (Some k) (field (JObject l) "step"))|]. destruct (field (JObject l) "step") as [s|]; [apply (X None (Some s))|right; left; eexists; reflexivity]. }
    destruct (P j) as [RP | (p & RP)]; [left; apply D; unfold read_all; cbn [load_json]; rewrite rbind_ret, RP; reflexivity|].
    destruct RE as [RE | [(es & RE) | RE]].
    + left. apply D. unfold read_all. cbn [load_json]. rewrite rbind_ret, RP, rbind_ret, RE. reflexivity.
    + left. apply D. unfold read_all. cbn [load_json]. rewrite rbind_ret, RP, rbind_ret, RE, rbind_ret. unfold read_materials. rewrite E. reflexivity.
    + right. unfold calculator, read_all. cbn [load_json]. rewrite rbind_ret, RP, rbind_ret, RE. reflexivity.
Qed.
Print Assumptions C62_missing.

(** ** the config entry adds its own line and nothing else *)
Definition config_line (s : string) : string :=
  if String.eqb s "atimav1.3" then ("using config: Atima v1.3" ++ nl)%string else if String.eqb s "atimav1.4" then ("using config: Atima v1.4" ++ nl)%string else "".
Theorem C62_config j j' s w : (forall k, In k ["projectile"; "energy"; "material"]%string -> field j' k = field j k) ->
  field j "config" = None -> field j' "config" = Some (JString s) ->
  match prog (Some (Parsed j)) w with
  | UB why => prog (Some (Parsed j')) w = UB why
  | Ok (out, code, w') => exists pre post line, out = (pre ++ post)%string /\ prog (Some (Parsed j')) w = Ok ((pre ++ line ++ post)%string, code, w') /\
      (line = config_line s \/ line = "" /\ post = load_error)
  end.
Proof.
  intros K C C'.
  assert (RP : read_projectile (F:=F) j' = read_projectile j) by (unfold read_projectile; rewrite (K "projectile" ltac:(cbn; tauto)); reflexivity).
  assert (RE : read_energy stod j' = read_energy stod j) by (unfold read_energy; rewrite (K "energy" ltac:(cbn; tauto)); reflexivity).
  assert (RM : read_materials show j' = read_materials show j) by (unfold read_materials; rewrite (K "material" ltac:(cbn; tauto)); reflexivity).
  assert (RC : read_config (F:=F) j = ret (parse_config NoConfig)) by (unfold read_config; rewrite C; reflexivity).
  assert (RC' : exists i, read_config (F:=F) j' = Ok (config_line s, Some (parse_config i))).
  { unfold read_config, config_line. rewrite C'. destruct (String.eqb s "atimav1.3"); [eexists; reflexivity|]. destruct (String.eqb s "atimav1.4"); eexists; reflexivity. }
  destruct RC' as (i & RC'). unfold calculator, read_all. cbn [load_json]. rewrite !rbind_ret, RP, RE, RM, RC, RC'.
  destruct (read_projectile j) as [[s1 [p|]]|]; unfold rbind; cbn [bind fst snd]; [| exists s1, load_error, ""%string; split; [reflexivity|split; [reflexivity|right; split; reflexivity]] | reflexivity].
  destruct (read_energy stod j) as [[s2 [es|]]|]; cbn [bind fst snd]; [| exists (s1 ++ s2)%string, load_error, ""%string; split; [reflexivity|split; [reflexivity|right; split; reflexivity]] | reflexivity].
  destruct (read_materials show j) as [[s3 [ls|]]|]; cbn [bind fst snd]; [| exists (s1 ++ s2 ++ s3)%string, load_error, ""%string; split; [reflexivity|split; [reflexivity|right; split; reflexivity]] | reflexivity].
  unfold ret. cbn [bind fst snd]. rewrite !sapp_nil.
  assert (FIN : forall post (code : Z) (w1 : world F), exists pre post' line, ((s1 ++ s2 ++ s3) ++ post = pre ++ post')%string /\
    Ok (((s1 ++ s2 ++ s3 ++ config_line s) ++ post)%string, code, w1) = Ok ((pre ++ line ++ post')%string, code, w1) /\
    (line = config_line s \/ line = "" /\ post' = load_error)).
  { intros post code w1. exists (s1 ++ s2 ++ s3)%string, post, (config_line s). split; [reflexivity|]. split; [|left; reflexivity]. rewrite !sapp_assoc. reflexivity. }
  destruct ls as [|m ls]; [apply FIN|]. destruct es as [|e es]; [apply FIN|].
  destruct (energy_lines junk show p (m :: ls) (e :: es) w) as [[t w1]|]; cbn [bind]; [apply FIN|reflexivity].
Qed.
Print Assumptions C62_config.
End Generic.
