(** * C62 over the reals and in double precision: the report of one energy does not depend on the others; inputs that go wrong *)
From Flocq Require Import Core.
From Coq Require Import ZArith Reals Ascii String List Bool Lra Lia Floats SpecFloat.
From Verif Require Import Num NumR NumF Structures DataQuadrature EnergyTable Spline Integrator Calculations NucData
  Reactions Storage Catima Convert Calculator CalculatorMain CacheProofs CacheFresh History KeyEq ApiCache GridProofs BoundsProofs TotalProofs
  ApiTotal Cases QuadProofs PropQuad LayerProofs DataMaterials DataProofs PropDedx PropTables PropSafe PropCache PropApi PropProgram.
Import ListNotations.
Local Open Scope string_scope.
Local Open Scope list_scope.
Local Open Scope R_scope.

(** ** the numbers determine the result *)
Lemma result_list_inj (a b : Result R) l l' : result_list a ++ l = result_list b ++ l' -> a = b /\ l = l'.
Proof.
  destruct a, b. cbn.
  intros H. injection H as -> -> -> -> -> -> -> -> -> -> -> -> -> ->. split; reflexivity.
Qed.
Lemma numbers_inj a b : length (mr_results a) = length (mr_results b) -> numbers a = numbers b -> a = b.
Proof.
  destruct a as [ra ta], b as [rb tb]. unfold numbers. cbn [mr_results mr_total].
  intros L E. assert (X : ra = rb /\ ta = tb); [|destruct X; subst; reflexivity]. revert rb L E. induction ra as [|x ra IH]; intros [|y rb] L E; try discriminate L.
  - cbn [map concat app] in E. pose proof (result_list_inj ta tb [] []) as I. rewrite !app_nil_r in I. destruct (I E) as [-> _]. split; reflexivity.
  - cbn [map concat] in E. rewrite <- !app_assoc in E. apply result_list_inj in E. destruct E as [-> E]. destruct (IH rb ltac:(cbn in L; lia) E) as [-> ->]. split; reflexivity.
Qed.
Lemma loop_length (junk : nat -> R * R) p c ls e tot w rs e' tot' w' : layers_loop junk p c ls e tot w = Ok (rs, e', tot', w') -> length rs = length ls.
Proof.
  revert e tot w rs e' tot' w'. induction ls as [|m ls IH]; intros e tot w rs e' tot' w' H; cbn [layers_loop] in H; [injection H as <- _ _ _; reflexivity|].
  destruct (calculate junk (at_T p e) m c w) as [[r w1]|]; cbn [bind] in H; [|discriminate].
  destruct (layers_loop junk p c ls (r_Eout r) (layer_update m r tot) w1) as [[[[rs1 e1] t1] w2]|] eqn:E; cbn [bind] in H; [|discriminate].
  injection H as <- _ _ _. cbn [length]. rewrite (IH _ _ _ _ _ _ _ E). reflexivity.
Qed.
Lemma run_lengths (junk : nat -> R * R) p ls es w rs w' : run_energies junk p ls es w = Ok (rs, w') -> Forall (fun r => length (mr_results r) = length ls) rs.
Proof.
  revert w rs w'. induction es as [|e es IH]; intros w rs w' H; cbn [run_energies] in H; [injection H as <- <-; constructor|].
  destruct (calculate_layers junk (at_T p e) Phasespace0 ls (w_default w) w) as [[r w1]|] eqn:C; cbn [bind] in H; [|discriminate].
  destruct (run_energies junk p ls es w1) as [[rs1 w2]|] eqn:E; cbn [bind] in H; [|discriminate]. injection H as <- <-. constructor; [|exact (IH _ _ _ E)].
  unfold calculate_layers in C. destruct (layers_loop junk (at_T p e) (w_default w) ls (pT (at_T p e)) (total0 (at_T p e) Phasespace0) w) as [[[[rs2 e2] t2] w3]|] eqn:LL; cbn [bind] in C; [|discriminate].
  injection C as <- _. cbn [mr_results]. exact (loop_length _ _ _ _ _ _ _ _ _ _ _ LL).
Qed.

(** ** one block of text per energy, a function of the energy, the projectile and the layers alone *)
Theorem C62_blocks (junk : nat -> R * R) show stod : (forall k, junk k = junk 0%nat) ->
  exists block : Projectile R -> Layers R -> R -> string, forall f out w,
    calculator junk show stod (Some f) world0 = Ok (out, 1%Z, w) ->
    exists pre p es ls c, read_all show stod f = Ok (pre, Some (p, es, ls, c)) /\ es <> [] /\ ls <> [] /\
      (pA p <> 0 -> out = (pre ++ title_lines show p ls ++ String.concat "" (map (block p ls) es))%string).
Proof.
  intros J.
  set (res := fun (p : Projectile R) (ls : Layers R) e => match calculate_layers junk (mkProj (pA p) (pZ p) 0 e) Phasespace0 ls Config0 world0 with Ok (r, _) => r | UB _ => mkMulti [] Result0 end).
  exists (fun p ls e => all_lines (energy_report show (pA p) e (res p ls e))). intros f out w H.
  destruct (C62_exit junk show stod (Some f) world0 out 1%Z w H) as [[X _]|(_ & pre & f' & p & es & ls & c & rs & EF & RD & NE & NL & RE & LN & EO)]; [discriminate X|].
  injection EF as <-. exists pre, p, es, ls, c. split; [exact RD|]. split; [exact NE|]. split; [exact NL|]. intros A.
  assert (PQ : pQ p = 0 /\ p = mkProj (pA p) (pZ p) (lit 0) (lit 0)).
  { clear - RD. unfold read_all in RD. destruct f as [| |j]; cbn [load_json] in RD; try discriminate RD. rewrite rbind_ret in RD.
    assert (RP : forall s q, read_projectile j = Ok (s, Some q) -> pQ q = 0 /\ q = mkProj (pA q) (pZ q) (lit 0) (lit 0)).
    { intros s q. unfold read_projectile. destruct (field j "projectile") as [e|]; [|discriminate].
      assert (LAST : forall A Z : R, ret (mkProj A Z (lit 0) (lit 0)) = Ok (s, Some q) -> pQ q = 0 /\ q = mkProj (pA q) (pZ q) (lit 0) (lit 0)).
      { intros A0 Z0 E. unfold ret in E. injection E as _ <-. split; [cbn [pQ]; numR; dec_norm; reflexivity|reflexivity]. }
      destruct e as [| | | | |l|]; try apply LAST. destruct l as [|a [|z l]]; [discriminate| |].
      - destruct a; cbn [get_double]; rewrite ?rbind_ret, ?rbind_throw; discriminate.
      - destruct a; cbn [get_double]; rewrite ?rbind_ret, ?rbind_throw; try discriminate; destruct z; cbn [get_double]; rewrite ?rbind_ret, ?rbind_throw; try discriminate; apply LAST. }
    destruct (read_projectile j) as [[s [q|]]|] eqn:E; unfold rbind in RD; cbn [bind fst snd] in RD; try discriminate RD.
    assert (QP : q = p); [|subst q; exact (RP _ _ eq_refl)].
    destruct (read_energy stod j) as [[s2 [es'|]]|]; cbn [bind fst snd] in RD; try discriminate RD.
    destruct (read_materials show j) as [[s3 [ls'|]]|]; cbn [bind fst snd] in RD; try discriminate RD.
    destruct (read_config j) as [[s4 [c'|]]|]; unfold ret in RD; cbn [bind fst snd] in RD; try discriminate RD. injection RD as _ -> _ _ _. reflexivity. }
  destruct PQ as [_ PE].
  assert (X : rs = map (res p ls) es).
  { pose proof (run_lengths _ _ _ _ _ _ _ RE) as RL.
    assert (F2 : Forall2 (fun e r => omap fst (exec junk (CLayers (mkProj (pA p) (pZ p) 0 e) Phasespace0 ls Config0) world0) = Ok (numbers r)) es rs)
      by (apply (energies_alone junk p ls es rs w J A PE RE)).
    clear - F2 RL. revert RL. induction F2 as [|e r es rs H _ IH]; intros RL; [reflexivity|]. inversion RL as [|? ? R1 R2]. subst. cbn [map]. rewrite <- (IH R2). f_equal.
    unfold res. cbn [exec] in H. destruct (calculate_layers junk (mkProj (pA p) (pZ p) 0 e) Phasespace0 ls Config0 world0) as [[r' w']|] eqn:C; [|discriminate H].
    cbn [omap bind fst snd] in H. injection H as H. symmetry. apply numbers_inj; [|exact H]. rewrite R1.
    unfold calculate_layers in C. destruct (layers_loop junk _ _ ls _ _ world0) as [[[[rs2 e2] t2] w3]|] eqn:LL in C; cbn [bind] in C; [|discriminate].
    injection C as <- _. exact (loop_length _ _ _ _ _ _ _ _ _ _ _ LL). }
  rewrite EO. f_equal. unfold full_report. rewrite app_assoc, all_lines_app, <- title_report. f_equal. rewrite X.
  clear. induction es as [|e es IH]; [reflexivity|]. cbn [map combine concat fst snd]. rewrite all_lines_app, IH, concat_cons. reflexivity.
Qed.
Print Assumptions C62_blocks.

(** ** a projectile without charge: the row before the tables is read *)
Lemma first_energies : 0 < energy 0 /\ energy 0 < energy 1 /\ energy 1 < 30.
Proof.
  split; [apply energy_pos; lia|]. split; [apply energy_incr; lia|].
  rewrite energy_G by lia. pose proof LN10_bounds as LB. unfold gval. match goal with |- exp ?x < 30 => assert (X : x < 0) end.
  { unfold gstep. rewrite INR_IZR_INZ with (n := 600%nat). change (Z.of_nat 600) with 600%Z. cbn [INR].
    replace (-3 + 1 * ((7 - -3) / (600 - 1))) with (- (1787 / 599)) by lra. set (l := LN10_) in *. clearbody l. nra. }
  apply exp_increasing in X. rewrite exp_0 in X. lra.
Qed.
Lemma uncharged_table p t c z : pZ p = IZR z -> (-2147483648 <= z <= 0)%Z -> m_atoms t <> [] -> (forall a, In a (m_atoms t) -> (1 <= tZ a)%Z) ->
  range_table (F:=R) p t c = UB OutOfBounds.
Proof.
  intros EZ B NE Tg. pose proof first_energies as (E0 & E01 & E1). pose proof grid_length as GL. unfold energy in E0, E01, E1.
  unfold range_table, table. remember (et_values energy_table) as g eqn:Eg. clear Eg.
  destruct g as [|g0 [|g1 rest]]; [discriminate GL|discriminate GL|]. cbn [nth] in E0, E01, E1. cbn [accumulate]. unfold scaled_integral at 1.
  replace (integrate (fdedx p t c) g0 g1) with (UB OutOfBounds : outcome R); [reflexivity|].
  destruct C26_library as [IN L]. rewrite L. unfold quad. cbn [fst snd]. rewrite (gl_ext 8 _ _ (fun _ => UB OutOfBounds)); [reflexivity|].
  intros x U. assert (X : 0 < x < 30) by (destruct (used_hull g0 g1 x U); lra). unfold fdedx.
  destruct (C38_charge_0_refuted (at_T p x) t c z EZ B NE Tg) as [D _]. rewrite D by exact X. reflexivity.
Qed.
(** catima::calculate on a nucleus without charge, whatever the history *)
Theorem C38_uncharged_refuted (junk : nat -> R * R) p t c w z : wf w -> ~ present p t c w -> pZ p = IZR z -> (-2147483648 <= z <= 0)%Z -> m_atoms t <> [] ->
  (forall a, In a (m_atoms t) -> (1 <= tZ a)%Z) -> 0.001 <= pT p -> calculate junk p t c w = UB OutOfBounds.
Proof.
  intros W NP EZ B NE Tg T. unfold calculate. cbv zeta.
  replace (fltb (pT p) Ezero) with false.
  2:{ symmetry. unfold Ezero. numR. destruct (Rltb_spec (pT p) (Rlit 1e-3)) as [L|]; [revert L; dec_norm; lra|reflexivity]. }
  cbn [andb]. unfold lookup.
  destruct (get_spec junk calculate_DataPoint w p t c W) as [(i & e & G & Hi & EI & M)|(NM & [(why & RC & G)|(d' & RC & G & EI)])].
  - exfalso. apply NP. exists e. split; [apply (nth_error_In _ i); exact EI|exact M].
  - rewrite G. cbn [bind]. f_equal. unfold rcalc, calculate_DataPoint in RC. rewrite (uncharged_table p t c z EZ B NE Tg) in RC. cbn [bind] in RC. congruence.
  - exfalso. unfold rcalc, calculate_DataPoint in RC. rewrite (uncharged_table p t c z EZ B NE Tg) in RC. discriminate RC.
Qed.
Print Assumptions C38_uncharged_refuted.

(** ** inputs that go wrong *)
Definition sample (projectile energy charge : json R) : json R :=
  JObject [("projectile", projectile); ("energy", energy); ("material", JObject [("A", JInt 12); ("Z", charge); ("thickness", JInt 1)])]%string.
Definition carbon_1 : Material R := mkMat (element_density 6) 1 12 0 [mkTarget 12 6 1].
Lemma sample_material show projectile energy : exists warn, read_materials show (sample projectile energy (JInt 6)) = Ok (warn, Some [carbon_1]).
Proof.
  destruct (read_materials_says show (sample projectile energy (JInt 6)) (JObject [("A", JInt 12); ("Z", JInt 6); ("thickness", JInt 1)])%string [mkMI (Some 12) (Some 6%Z) None (Some 1) None] eq_refl) as (warn & E).
  - right. eexists. split; [|reflexivity]. assert (NI : forall z, number (JInt z) (IZR z)) by (intros z; right; exists z; split; reflexivity).
    split; [eexists; reflexivity|]. cbn [mi_A mi_Z mi_density mi_thickness mi_Ipot].
    split; [apply (opt_present number (JInt 12) 12); exact (NI 12%Z)|]. split; [apply (opt_present integer (JInt 6) 6%Z); left; split; [reflexivity|lia]|].
    split; [apply opt_absent|]. split; [apply (opt_present number (JInt 1) 1); exact (NI 1%Z)|apply opt_absent].
  - exists warn. rewrite E. cbn [map]. pose proof (C49_element (Some 12) 6 None (Some 1) None ltac:(lia)) as EM. cbv zeta in EM. rewrite EM. cbn [all_some option_map].
    unfold weight_or_standard, carbon_1. destruct (Rlt_dec 0 12); [reflexivity|lra].
Qed.
Definition not_array {F} (j : json F) : Prop := match j with JArray _ => False | _ => True end.
Lemma no_atoms_key (p : Projectile R) t c : m_atoms t <> [] -> ~ present p t c world0.
Proof.
  intros NE (e & I & M). unfold world0 in I. cbn [w_slots] in I. apply repeat_spec in I. subst e. unfold key_match in M. apply andb_true_iff in M. destruct M as [M _].
  apply andb_true_iff in M. destruct M as [_ M]. apply mat_eqb_R in M. destruct M as (_ & _ & _ & M). apply NE. rewrite <- M. reflexivity.
Qed.
(** a projectile that is not an array is accepted as A = Z = 0, and the tables are then read out of bounds *)
Theorem C62_projectile_refuted (junk : nat -> R * R) show stod projectile : not_array projectile ->
  calculator junk show stod (Some (Parsed (sample projectile (JInt 100) (JInt 6)))) world0 = UB OutOfBounds.
Proof.
  intros NA. destruct (sample_material show projectile (JInt 100)) as (warn & EM).
  assert (R : read_all show stod (Parsed (sample projectile (JInt 100) (JInt 6))) = Ok (warn, Some (mkProj (lit 0) (lit 0) (lit 0) (lit 0), [100], [carbon_1], parse_config NoConfig))).
  { unfold read_all. cbn [load_json]. rewrite rbind_ret.
    replace (read_projectile (sample projectile (JInt 100) (JInt 6))) with (ret (mkProj (lit 0) (lit 0) (lit 0) (lit 0) : Projectile R)) by (destruct projectile; try contradiction; reflexivity).
    rewrite rbind_ret. replace (read_energy stod (sample projectile (JInt 100) (JInt 6))) with (ret [100]) by reflexivity. rewrite rbind_ret, EM. unfold rbind at 1. cbn [bind fst snd].
    replace (read_config (sample projectile (JInt 100) (JInt 6))) with (ret (parse_config (F:=R) NoConfig)) by reflexivity. rewrite rbind_ret. unfold ret. cbn [bind fst snd]. rewrite sapp_nil. reflexivity. }
  unfold calculator. rewrite R. cbn [bind fst snd]. cbn [energy_lines]. unfold calculate_layers. cbn [layers_loop].
  rewrite (C38_uncharged_refuted junk _ carbon_1 _ world0 0%Z); [reflexivity|apply wf_world0|apply no_atoms_key; discriminate| |lia|discriminate|intros a [<-|[]]; cbn; lia|].
  - cbn [at_T pZ]. numR. dec_norm. reflexivity.
  - cbn [at_T pT]. lra.
Qed.
Print Assumptions C62_projectile_refuted.

(** charge numbers are reduced modulo 2^32 *)
Theorem C62_charge_refuted (junk : nat -> R * R) show stod projectile energy w :
  calculator junk show stod (Some (Parsed (sample projectile energy (JInt 4294967302)))) w = calculator junk show stod (Some (Parsed (sample projectile energy (JInt 6)))) w.
Proof. reflexivity. Qed.
Print Assumptions C62_charge_refuted.

Lemma list_density (l : list (R * Z * R)) rho ip mass : m_rho (Material_list l rho ip mass) = rho.
Proof.
  unfold Material_list. set (m := fold_left _ l _). assert (RH : m_rho m = rho) by (unfold m; rewrite list_rho; reflexivity).
  destruct (negb (feqb mass (lit 0.0))); [exact RH|]. unfold material_calculate. destruct (forallb _ _); exact RH.
Qed.
(** a compound without "density" is announced with density 0, and calculated with the density of the database *)
Theorem C62_warning_refuted show th : 0 < th ->
  exists m, read_material show (JObject [("Z", JInt 206); ("thickness", JFloat th)]%string) = Ok (("Warning: material density = " ++ show 0 ++ nl)%string, Some m) /\ m_rho m = 1 /\ m_th m = th.
Proof.
  intros T. unfold read_material. unfold get_or. cbn [field assoc String.eqb Ascii.eqb Bool.eqb get_double get_int]. rewrite !rbind_ret.
  change (wrap32 206) with 206%Z. cbn [Z.leb Z.ltb Z.compare Pos.compare Pos.compare_cont]. unfold element_density. cbn [Z.ltb Z.compare Pos.compare Pos.compare_cont andb].
  assert (Z0 : Rlit 0e-1 = 0) by (dec_norm; lra). assert (Z1 : Rlit 0 = 0) by (dec_norm; lra). numR. rewrite !Z0, !Z1.
  destruct (Rleb_spec 0 0); [|lra]. destruct (Rleb_spec th 0); [lra|]. unfold catch, rbind, ret, print. cbn [bind fst snd]. rewrite !sapp_nil.
  eexists. split; [reflexivity|]. split; [|reflexivity]. unfold set_thickness. cbn [m_rho].
  unfold get_material, get_compound. cbn [Z.ltb Z.compare Pos.compare Pos.compare_cont andb].
  cbn [find compounds cmp_id Z.eqb Pos.eqb]. unfold compound_material. rewrite list_density. cbn [cmp_density]. numR. dec_norm. reflexivity.
Qed.
Print Assumptions C62_warning_refuted.

(** "step" is read as int and converted even when "num" decides: a step below 1 is undefined behaviour *)
Theorem C62_step_refuted (lm : Libm) junk show stod w material : 
  calculator (N:=NumF lm) junk show stod (Some (Parsed (JObject [("projectile", JArray [JInt 12; JInt 6]);
     ("energy", JObject [("min", JInt 50); ("max", JInt 100); ("step", JFloat 0.5%float); ("num", JInt 11)]); ("material", material)]%string))) w = UB BadCast.
Proof. reflexivity. Qed.
Print Assumptions C62_step_refuted.

(** ** a run: three energies, carbon on carbon, with a comment and a config entry *)
Definition input_file : json R :=
  JObject [("comment", JString "test"); ("config", JString "atimav1.3"); ("projectile", JArray [JInt 12; JInt 6; JNull]);
           ("material", JArray [JObject [("Z", JInt 6); ("name", JString "target"); ("A", JFloat 12)]]);
           ("energy", JObject [("num", JInt 3); ("max", JInt 300); ("min", JInt 100)])]%string.
Definition input_record : input R := mkInput 12 6 (EGrid 100 300 (Some 3%Z) None) [mkMI (Some 12) (Some 6%Z) None None None] Atima13.
Lemma input_says stod : says stod input_file input_record.
Proof.
  assert (NI : forall z, number (JInt z) (IZR z)) by (intros z; right; exists z; split; reflexivity).
  split; [exists (JInt 12), (JInt 6), [JNull]; split; [reflexivity|split; [exact (NI 12%Z)|exact (NI 6%Z)]]|].
  split.
  { eexists. split; [reflexivity|]. cbn [input_record in_energy energy_says]. eexists. exists (JInt 100), (JInt 300).
    split; [reflexivity|]. split; [reflexivity|]. split; [exact (NI 100%Z)|]. split; [reflexivity|]. split; [exact (NI 300%Z)|].
    split; [apply (opt_present integer (JInt 3) 3%Z); left; split; [reflexivity|lia]|apply opt_absent]. }
  split; [|reflexivity].
  eexists. split; [reflexivity|]. left. eexists. split; [reflexivity|]. cbn [input_record in_materials]. constructor; [|constructor].
  split; [eexists; reflexivity|]. cbn [mi_A mi_Z mi_density mi_thickness mi_Ipot].
  split; [apply (opt_present number (JFloat 12) 12); left; reflexivity|]. split; [apply (opt_present integer (JInt 6) 6%Z); left; split; [reflexivity|lia]|].
  split; [apply opt_absent|]. split; apply opt_absent.
Qed.
Example C62_case show stod : exists out w, calculator junk0 show stod (Some (Parsed input_file)) world0 = Ok (out, 1%Z, w) /\
  exists warn ls r1 r2 r3, out = (warn ++ all_lines (full_report show 12 6 ls [100; 100 + 1 * ((300 - 100) / 2); 300] [r1; r2; r3]))%string /\ length ls = 1%nat.
Proof.
  pose proof (C62_report junk0 show stod input_file input_record world0 (input_says stod)) as H.
  destruct C49_case as (rs & w & L & M). fold input_record in M. rewrite M in H. destruct H as (warn & ls & es & EM & EE & LE & EC).
  eexists. exists w. split; [exact EC|].
  assert (X : es = [100; 100 + 1 * ((300 - 100) / 2); 300]).
  { cbn [input_record in_energy] in EE. rewrite (C49_energies 100 300 3 None ltac:(lra) ltac:(lia) ltac:(discriminate)) in EE. injection EE as <-.
    unfold linspace_vector. numR. destruct (Rltb_spec 100 300); [|lra]. cbn [Z.leb Z.compare Pos.compare Pos.compare_cont andb]. change (Z.to_nat (3 - 1)) with 2%nat. cbn [seq map app].
    change (IZR (3 - 1)) with 2. change (IZR (Z.of_nat 0)) with 0. change (IZR (Z.of_nat 1)) with 1. f_equal. ring. }
  destruct rs as [|r1 [|r2 [|r3 [|]]]]; try discriminate L. exists warn, ls, r1, r2, r3. rewrite <- X. split; [reflexivity|].
  cbn [input_record in_materials map] in EM. destruct (json_material (mkMI (Some 12) (Some 6%Z) None None None)) as [m|]; [|discriminate EM]. cbn in EM. injection EM as <-. reflexivity.
Qed.
(** the same members in another order, without the comment *)
Example C62_alike_case : alike input_file
  (JObject [("projectile", JArray [JInt 12; JInt 6; JNull]); ("energy", JObject [("min", JInt 100); ("max", JInt 300); ("num", JInt 3)]);
            ("material", JArray [JObject [("A", JFloat 12); ("Z", JInt 6)]]); ("config", JString "atimav1.3")])%string.
Proof.
  apply alike_object. intros k K. cbn [known In] in K.
  repeat (destruct K as [<-|K]; [cbn [assoc String.eqb Ascii.eqb Bool.eqb]; try apply orel_none; apply orel_some; try apply alike_refl|]); [| |contradiction].
  - apply alike_object. intros k' K'. cbn [known In] in K'. repeat (destruct K' as [<-|K']; [cbn [assoc String.eqb Ascii.eqb Bool.eqb]; try apply orel_none; apply orel_some; apply alike_refl|]). contradiction.
  - apply alike_array. constructor; [|constructor]. apply alike_object. intros k' K'. cbn [known In] in K'.
    repeat (destruct K' as [<-|K']; [cbn [assoc String.eqb Ascii.eqb Bool.eqb]; try apply orel_none; apply orel_some; apply alike_refl|]). contradiction.
Qed.
