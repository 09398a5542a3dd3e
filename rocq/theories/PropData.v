(** * C32-C35: databases *)
From Coq Require Import ZArith QArith Reals Qreals Bool Lra Lia String List.
From Verif Require Import Num NumR Structures DataElements DataAbundance DataMaterials NucData SpecData DataProofs.
Import ListNotations.
Open Scope R_scope.

(** ** C32 *)

(** ids 1-98: the element with its tabulated atomic weight and density *)
Theorem C32_elements z : (1 <= z <= 98)%Z ->
  exists A rho, aget element_atomic_weights z = Ok A /\ aget element_densities z = Ok rho /\
    get_material z = mkMat (Rlit rho) 0 (Rlit A) 0 [mkTarget (Rlit A) z 1].
Proof.
  intros H. exists (nth (Z.to_nat z) element_atomic_weights 0%dec), (nth (Z.to_nat z) element_densities 0%dec).
  split; [apply nth_aget; rewrite weights_length; lia|].
  split; [apply nth_aget; rewrite densities_length; lia|].
  rewrite element_material by assumption. unfold element_density, element_atomic_weight.
  replace ((0 <? z) && (z <? 99))%Z with true by (symmetry; rewrite andb_true_iff, !Z.ltb_lt; lia).
  replace ((0 <? z) && (z <? 110))%Z with true by (symmetry; rewrite andb_true_iff, !Z.ltb_lt; lia).
  reflexivity.
Qed.
Print Assumptions C32_elements.

(** ids that are neither: the default-constructed material, which has no constituents, density 1e-5, and thickness, molar mass and
    ionisation potential 0 *)
Theorem C32_other {F} {N : Num F} id : ~ (1 <= id <= 98)%Z -> ~ (201 <= id <= 349)%Z ->
  let m := get_material id in
  m_atoms m = [] /\ m_rho m = lit 1e-5 /\ m_th m = lit 0 /\ m_M m = lit 0 /\ m_I m = lit 0.
Proof.
  intros A B. enough (E : get_material id = Material0) by (cbv zeta; rewrite E; repeat split). unfold get_material, get_compound. rewrite find_compound_none by assumption.
  replace ((0 <? id) && (id <? 99))%Z with false; auto. symmetry. rewrite andb_false_iff, !Z.ltb_ge. lia.
Qed.
Print Assumptions C32_other.

(** every database material has positive density and molar mass and at least one constituent, and
    all constituents have positive mass, Z >= 1 and a positive amount *)
Theorem C32_physical id : (1 <= id <= 98)%Z \/ (201 <= id <= 349)%Z ->
  let m := get_material (F:=R) id in
  0 < m_rho m /\ 0 < m_M m /\ m_atoms m <> [] /\
  forall t, In t (m_atoms m) -> 0 < tA t /\ (1 <= tZ t)%Z /\ 0 < tstn t.
Proof.
  intros [H|H].
  - rewrite (element_material id H). cbn [m_rho m_M m_atoms].
    split; [now apply density_pos|]. split; [apply weight_pos; lia|]. split; [discriminate|].
    intros t [<-|[]]. cbn [tA tZ tstn]. split; [apply weight_pos; lia|]. split; [lia | lra].
  - destruct (get_material_compound id H) as (c & I & _ & ->).
    destruct (compound_physical c I) as ((P1 & P2 & P3 & P4) & _). repeat split; auto;
      rewrite Forall_forall in P4; destruct (P4 _ H0) as (Q1 & Q2 & Q3); auto.
Qed.
Print Assumptions C32_physical.

(** a database material given by fractions (all amounts below 1) has fractions summing to 1
    within 2e-6, except photo emulsion *)
Theorem C32_fractions id : (201 <= id <= 349)%Z -> id <> 318%Z ->
  let m := get_material (F:=R) id in
  (forall t, In t (m_atoms m) -> tstn t < 1) ->
  Rabs (fold_right Rplus 0 (map tstn (m_atoms m)) - 1) <= 2 / 1000000.
Proof.
  intros H NE m Hf. destruct (get_material_compound id H) as (c & I & E & G). unfold m in *. rewrite G in *.
  assert (S : forall l : list (Target R), fold_right Rplus 0 (map tstn l) = total_stn l).
  { clear. induction l as [|t l IH]; simpl; auto. now rewrite IH. }
  rewrite S, total_count by assumption.
  pose proof fractions_checked as C. rewrite forallb_forall in C. specialize (C c I).
  unfold fraction_check in C. rewrite (by_fraction_stn c I Hf) in C.
  replace (Z.eqb (cmp_id c) 318) with false in C by (symmetry; apply Z.eqb_neq; congruence).
  cbn [negb andb implb] in C. apply andb_true_iff in C. destruct C as [C1 C2].
  apply Qle_bool_iff in C1, C2. apply Qle_Rle in C1, C2.
  unfold Q2R at 2 in C1. unfold Q2R at 1 in C2. cbn [Qnum Qden] in C1, C2.
  apply Rabs_le. lra.
Qed.
Print Assumptions C32_fractions.

(** photo emulsion (318): the fractions sum to 0.99688; the iodine fraction 0.00312 is missing *)
Theorem C32_photoemulsion_refuted : exists id,
  let m := get_material (F:=R) id in
  name_id "PhotoEmulsion" = Some id /\
  (forall t, In t (m_atoms m) -> tstn t < 1) /\
  fold_right Rplus 0 (map tstn (m_atoms m)) = 0.99688.
Proof.
  exists 318%Z. split; [vm_compute; reflexivity|].
  destruct (get_material_compound 318 ltac:(lia)) as (c & I & E & G). rewrite G.
  destruct (find_compound 318 ltac:(lia)) as (c' & F' & _). 
  assert (S : forall l : list (Target R), fold_right Rplus 0 (map tstn l) = total_stn l).
  { clear. induction l as [|t l IH]; simpl; auto. now rewrite IH. }
  rewrite S, total_count by assumption. destruct (compound_physical c I) as (_ & -> & _).
  assert (X : forallb (fun c => implb (Z.eqb (cmp_id c) 318)
     (Qeq_bool (sumQ (map snd (composition c))) (99688 # 100000)
      && forallb (fun e => match e with (_, _, s) => negb (Qle_bool 1 (dec_Q s)) end) (cmp_atoms c))) compounds = true)
    by (vm_compute; reflexivity).
  rewrite forallb_forall in X. specialize (X c I). rewrite E in X. cbn [Z.eqb Pos.eqb implb] in X.
  apply andb_true_iff in X. destruct X as [X1 X2]. split.
  - intros t Ht. apply in_map_iff in Ht. destruct Ht as (e & <- & He). unfold lit_entries in He.
    apply in_map_iff in He. destruct He as ([[a z] s] & <- & He). cbn [entry_target tstn].
    rewrite forallb_forall in X2. specialize (X2 _ He). cbv beta iota in X2. apply negb_true_iff in X2.
    change 1 with (Rlit (Dec 1 0)). numR. apply Rlit_lt. exact X2.
  - apply Qeq_bool_eq in X1. apply Qeq_eqR in X1. rewrite X1. unfold Q2R. simpl. lra.
Qed.
Print Assumptions C32_photoemulsion_refuted.

(** a compound whose name is a chemical formula contains the atoms of that formula, with three
    exceptions: P10 and PVC are not meant as formulas, Na2CO3 is wrong *)
Theorem C32_formula id name l :
  In (id, name) compound_names -> formula name = Some l ->
  ~ In name ["P10"; "PVC"; "Na2CO3"]%string ->
  forall z, amount (get_material id) z = IZR (count Z.add 0%Z l z).
Proof.
  intros I F NI z. pose proof formulas_checked as C. rewrite forallb_forall in C.
  specialize (C _ I). cbn [snd] in C. rewrite F in C. apply orb_true_iff in C. destruct C as [C|C].
  - exfalso. apply NI. apply existsb_exists in C. destruct C as (x & Hx & E).
    apply String.eqb_eq in E. now subst x.
  - destruct (has_formula_amount name name l C F) as (id' & N & _ & H).
    replace id with id'; [apply H|].
    assert (U : forallb (fun e => match name_id (snd e) with Some i => Z.eqb i (fst e) | None => false end)
                  compound_names = true) by (vm_compute; reflexivity).
    rewrite forallb_forall in U. specialize (U _ I). cbn [fst snd] in U. rewrite N in U. now apply Z.eqb_eq.
Qed.
Print Assumptions C32_formula.

(** sodium carbonate has one sodium atom *)
Theorem C32_Na2CO3_refuted : exists id l,
  In (id, "Na2CO3"%string) compound_names /\ formula "Na2CO3" = Some l /\
  amount (get_material id) 11 = 1 /\ count Z.add 0%Z l 11 = 2%Z.
Proof.
  exists 307%Z. eexists. split.
  { apply (find_some (fun e => String.eqb (snd e) "Na2CO3")). vm_compute. reflexivity. } split; [vm_compute; reflexivity|]. split; [|reflexivity].
  destruct (get_material_compound 307 ltac:(lia)) as (c & I & E & ->). rewrite amount_count by assumption.
  assert (X : forallb (fun c => implb (Z.eqb (cmp_id c) 307) (Qeq_bool (count Qplus 0%Q (composition c) 11) 1))
    compounds = true) by (vm_compute; reflexivity).
  rewrite forallb_forall in X. specialize (X c I). rewrite E in X. cbn [Z.eqb Pos.eqb implb] in X.
  apply Qeq_bool_eq in X. apply Qeq_eqR in X. rewrite X. unfold Q2R. simpl. lra.
Qed.
Print Assumptions C32_Na2CO3_refuted.

(** compounds with a trivial name have the textbook composition, except Polyolefin *)
Theorem C32_textbook name f l :
  In (name, f) textbook -> formula f = Some l -> name <> "Polyolefin"%string ->
  exists id, name_id name = Some id /\ (201 <= id <= 349)%Z /\
    forall z, amount (get_material id) z = IZR (count Z.add 0%Z l z).
Proof.
  intros I F NE. pose proof textbook_checked as C. rewrite forallb_forall in C. specialize (C _ I).
  cbn [fst snd] in C. apply orb_true_iff in C. destruct C as [C|C].
  - apply String.eqb_eq in C. contradiction.
  - now apply (has_formula_amount name f).
Qed.
Print Assumptions C32_textbook.

(** a polyolefin contains carbon and hydrogen; the entry has oxygen and no carbon *)
Theorem C32_polyolefin_refuted : exists id,
  name_id "Polyolefin" = Some id /\
  amount (get_material id) 6 = 0 /\ amount (get_material id) 8 = 8 /\ amount (get_material id) 1 = 16.
Proof.
  assert (X : forallb (fun e => implb (String.eqb (snd e) "Polyolefin") (forallb (fun c =>
     implb (Z.eqb (cmp_id c) (fst e)) (Qeq_bool (count Qplus 0%Q (composition c) 6) 0
       && Qeq_bool (count Qplus 0%Q (composition c) 8) 8 && Qeq_bool (count Qplus 0%Q (composition c) 1) 16)) compounds))
    compound_names = true) by (vm_compute; reflexivity).
  destruct (find (fun e => String.eqb (snd e) "Polyolefin") compound_names) as [[id n]|] eqn:E;
    [|vm_compute in E; discriminate].
  exists id. split; [unfold name_id; rewrite E; reflexivity|].
  destruct (find_some _ _ E) as [I M]. cbn [snd] in M.
  rewrite forallb_forall in X. specialize (X _ I). cbn [fst snd] in X. rewrite M in X. cbn [implb] in X.
  rewrite forallb_forall in X.
  assert (B : (201 <= id <= 349)%Z).
  { assert (V : forallb (fun e => (201 <=? fst e) && (fst e <=? 349))%Z compound_names = true) by (vm_compute; reflexivity).
    rewrite forallb_forall in V. specialize (V _ I). cbn [fst] in V. rewrite andb_true_iff, !Z.leb_le in V. lia. }
  destruct (get_material_compound id B) as (c & Ic & Ec & ->). specialize (X c Ic).
  rewrite Ec, Z.eqb_refl in X. cbn [implb] in X. rewrite !andb_true_iff in X. destruct X as [[X1 X2] X3].
  rewrite !amount_count by assumption. apply Qeq_bool_eq in X1, X2, X3. apply Qeq_eqR in X1, X2, X3.
  rewrite X1, X2, X3. unfold Q2R. simpl. lra.
Qed.
Print Assumptions C32_polyolefin_refuted.

Example C32_ex_water : exists m, m = get_material (F:=R) 206 /\
  name_id "Water" = Some 206%Z /\ amount m 1 = 2 /\ amount m 8 = 1.
Proof.
  exists (get_material 206). split; auto.
  destruct (C32_textbook "Water" "H2O" [(1, 2); (8, 1)]%Z) as (id & N & _ & H);
    [vm_compute; tauto | reflexivity | discriminate|].
  assert (E : name_id "Water" = Some 206%Z) by (vm_compute; reflexivity).
  rewrite E in N. injection N as <-. split; auto. rewrite !H. split; reflexivity.
Qed.

(** ** C33 *)

(** For every z there is one list of isotopes (mass number, abundance) which the four lookups read:
    it is empty outside 1-109; its mass numbers are positive and distinct; abundances are positive,
    do not increase along the list, and sum to 1 within 1e-3. *)
Theorem C33_isotopes z : exists l : list (Z * dec),
  get_isotopes_num z = Ok (Z.of_nat (length l)) /\
  (forall i, (0 <= i < 2147483647)%Z ->
     let e := nth (Z.to_nat i) l (0%Z, 0%dec) in
     get_isotope_a z i = Ok (fst e) /\ get_abundance z i = Ok (snd e) /\ get_isotope z i = Ok e) /\
  (l <> [] <-> (1 <= z <= 109)%Z) /\
  NoDup (map fst l) /\
  (forall e, In e l -> (0 < fst e)%Z /\ 0 < Rlit (snd e)) /\
  (forall i, (S i < length l)%nat ->
     Rlit (snd (nth (S i) l (0%Z, 0%dec))) <= Rlit (snd (nth i l (0%Z, 0%dec)))) /\
  (l <> [] -> Rabs (fold_right Rplus 0 (map (fun e => Rlit (snd e)) l) - 1) <= 1 / 1000).
Proof.
  exists (isotopes z). split; [apply isotopes_num|]. split; [intros i Hi; now apply isotope_lookup|].
  assert (D : (1 <= z <= 109)%Z \/ ~ (1 <= z <= 109)%Z) by lia. destruct D as [D|D].
  - split; [split; [intros _; exact D|]|].
    { intros _ C. pose proof (isotopes_num z) as E. rewrite C in E.
      destruct (isotopes_num_in z D) as (lo & hi & L & _ & E' & _). rewrite E' in E. injection E as E.
      cbn [length Z.of_nat] in E. lia. }
    pose proof (isotopes_checked z D) as C. unfold isotopes_check in C. rewrite !andb_true_iff in C.
    destruct C as [[[[C1 C2] C3] C4] C5]. split; [now apply nodupb_NoDup|]. split; [|split].
    + intros e He. rewrite forallb_forall in C3. specialize (C3 e He). apply andb_true_iff in C3.
      destruct C3 as [A B]. apply Z.ltb_lt in A. split; auto. now apply Rlit_pos.
    + intros i Hi. pose proof (sorted_desc_nth _ C2 i ltac:(rewrite map_length; exact Hi)) as S.
      apply Qle_Rle in S. rewrite !Rlit_Q.
      assert (N : forall k, (k < length (isotopes z))%nat ->
        nth k (map (fun e => dec_Q (snd e)) (isotopes z)) 0%Q = dec_Q (snd (nth k (isotopes z) (0%Z, 0%dec)))).
      { intros k Hk. rewrite (nth_indep _ 0%Q (dec_Q (snd (0%Z, 0%dec)))) by (rewrite map_length; exact Hk).
        apply (map_nth (fun e => dec_Q (snd e))). }
      rewrite !N in S by lia. exact S.
    + intros _. apply Qle_bool_iff in C4, C5. apply Qle_Rle in C4, C5.
      assert (S : forall l : list (Z * dec),
        fold_right Rplus 0 (map (fun e => Rlit (snd e)) l) = Q2R (sumQ (map (fun e => dec_Q (snd e)) l))).
      { clear. induction l as [|e l IH]; simpl; [symmetry; apply Q2R_0|]. rewrite IH, Q2R_plus, Rlit_Q. reflexivity. }
      rewrite S. unfold Q2R at 2 in C4. unfold Q2R at 1 in C5. cbn [Qnum Qden] in C4, C5. apply Rabs_le. lra.
  - rewrite isotopes_out by assumption. split; [split; [congruence | intros; contradiction]|].
    split; [constructor|]. split; [intros e []|]. split; [simpl; intros i Hi; lia | congruence].
Qed.
Print Assumptions C33_isotopes.

Example C33_ex_tin : get_isotopes_num 50 = Ok 10%Z /\ get_isotope_a 50 0 = Ok 120%Z /\ get_isotope_a 50 10 = Ok 0%Z.
Proof. vm_compute. auto. Qed.

(** negative indices: outside the table for hydrogen, the previous element's isotope for helium;
    INT_MAX: the addition i+1 overflows *)
Theorem C33_negative_index_refuted :
  get_isotope_a 1 (-1) = UB OutOfBounds /\ get_isotope 1 (-1) = UB OutOfBounds /\
  (exists a, get_isotope_a 2 (-1) = Ok a /\ get_isotope_a 1 1 = Ok a /\ a = 2%Z) /\
  get_isotope_a 1 2147483647 = UB SignedOverflow.
Proof. vm_compute. split; [|split; [|split]]; auto. exists 2%Z. auto. Qed.
Print Assumptions C33_negative_index_refuted.

(** exactly which lookups are undefined, for every z and every int i *)
Theorem C33_defined_iff z i : (-2147483648 <= i <= 2147483647)%Z ->
  (exists a, get_isotope_a z i = Ok a) <->
  ~ (1 <= z <= 109)%Z \/
  ((i < 2147483647)%Z /\ exists first, aget abundance_z_index (z - 1) = Ok first /\ (0 <= first + i)%Z).
Proof.
  intros B. assert (D : (1 <= z <= 109)%Z \/ ~ (1 <= z <= 109)%Z) by lia. destruct D as [D|D].
  2:{ split; auto. intros _. unfold get_isotope_a. rewrite isotopes_num_out by assumption. cbn. eauto. }
  destruct (isotopes_num_in z D) as (lo & hi & L & M & E & A & _).
  unfold get_isotope_a, no_isotope, iinc. rewrite E. cbn [bind].
  replace (hi - lo =? 0)%Z with false by (symmetry; apply Z.eqb_neq; lia).
  destruct (Z.eqb_spec i 2147483647); cbn [bind].
  - split; [intros (a & X); discriminate | intros [C|[C _]]; lia].
  - rewrite A. cbn [bind]. rewrite Z.gtb_ltb. destruct (Z.ltb_spec (hi - lo) (i + 1)) as [C|C].
    + split; [intros _; right; split; [lia|]; exists lo; split; auto; lia | intros _; eauto].
    + split.
      * intros (a & X). right. split; [lia|]. exists lo. split; auto.
        apply aget_ok in X. lia.
      * intros [X|[_ (f & X & Y)]]; [contradiction|]. injection X as <-.
        eexists. apply (nth_aget _ _ 0%Z). rewrite isotopes_a_length. lia.
Qed.
Print Assumptions C33_defined_iff.

(** ** C34 *)
Theorem C34_atomic_weight z :
  ((1 <= z <= 109)%Z -> exists d, aget element_atomic_weights z = Ok d /\
       element_atomic_weight z = Rlit d /\ 0 < Rlit d) /\
  (~ (1 <= z <= 109)%Z -> element_atomic_weight (F:=R) z = 0).
Proof.
  split; intros H.
  - exists (nth (Z.to_nat z) element_atomic_weights 0%dec).
    split; [apply nth_aget; rewrite weights_length; lia|].
    pose proof (weight_pos z H) as P. unfold element_atomic_weight in *.
    replace ((0 <? z) && (z <? 110))%Z with true in * by (symmetry; rewrite andb_true_iff, !Z.ltb_lt; lia).
    split; [reflexivity | exact P].
  - unfold element_atomic_weight. replace ((0 <? z) && (z <? 110))%Z with false; [numR; dec_norm; lra|].
    symmetry. rewrite andb_false_iff, !Z.ltb_ge. lia.
Qed.
Theorem C34_density z :
  ((1 <= z <= 98)%Z -> exists d, aget element_densities z = Ok d /\
       element_density z = Rlit d /\ 0 < Rlit d) /\
  (~ (1 <= z <= 98)%Z -> element_density (F:=R) z = 0).
Proof.
  split; intros H.
  - exists (nth (Z.to_nat z) element_densities 0%dec).
    split; [apply nth_aget; rewrite densities_length; lia|].
    pose proof (density_pos z H) as P. unfold element_density in *.
    replace ((0 <? z) && (z <? 99))%Z with true in * by (symmetry; rewrite andb_true_iff, !Z.ltb_lt; lia).
    split; [reflexivity | exact P].
  - unfold element_density. replace ((0 <? z) && (z <? 99))%Z with false; [numR; dec_norm; lra|].
    symmetry. rewrite andb_false_iff, !Z.ltb_ge. lia.
Qed.
Theorem C34_ionisation_potential z :
  ((1 <= z <= 120)%Z -> exists d, aget ionisation_potentials_z z = Ok d /\
       ipot z = Rlit d /\ 0 < Rlit d) /\
  (~ (1 <= z <= 120)%Z -> ipot (F:=R) z = 0).
Proof.
  split; intros H.
  - exists (nth (Z.to_nat z) ionisation_potentials_z 0%dec).
    split; [apply nth_aget; rewrite ipot_length; lia|].
    pose proof (ipot_pos z H) as P. unfold ipot in *.
    replace ((z <? 1) || (z >? 120))%Z with false in *
      by (symmetry; rewrite orb_false_iff, Z.ltb_ge, Z.gtb_ltb, Z.ltb_ge; lia).
    split; [reflexivity | exact P].
  - unfold ipot. replace ((z <? 1) || (z >? 120))%Z with true; [numR; dec_norm; lra|].
    symmetry. rewrite orb_true_iff, Z.ltb_lt, Z.gtb_lt. lia.
Qed.
Print Assumptions C34_atomic_weight.
Print Assumptions C34_density.
Print Assumptions C34_ionisation_potential.
Example C34_ex : element_atomic_weight (F:=R) 6 = 12.0107 /\ ipot (F:=R) 6 = 81.
Proof. unfold element_atomic_weight, ipot. cbn [Z.ltb Z.gtb Z.compare Pos.compare Pos.compare_cont andb orb].
  split; numR; simpl nth; dec_norm; lra. Qed.

(** ** C35 *)
Theorem C35_roundtrip id : (201 <= id <= 347)%Z ->
  materialdb_id (get_material (F:=R) id) = if (id =? 251)%Z then 201%Z else id.
Proof.
  intros H. destruct (materialdb_find (get_material (F:=R) id)) as [(i & B & E & M & L)|[E C]].
  - rewrite E. apply match_ids in M; [|lia|lia]. destruct (Z.eqb_spec id 251) as [X|X].
    + destruct M as [M|[M|M]]; [|lia|lia]. exfalso. subst i.
      assert (Y : mocadi_material_match (F:=R) (get_material 201) (get_material id) = false) by (apply L; lia).
      subst id. assert (Z : get_material (F:=R) 201 = get_material 251) by reflexivity.
      rewrite Z, match_refl in Y. discriminate.
    + destruct M as [M|[M|M]]; try lia. exfalso. destruct M as [-> ->]. 
      specialize (L 201%Z ltac:(lia)). rewrite match_refl in L. discriminate.
  - exfalso. specialize (C id H). rewrite match_refl in C. discriminate.
Qed.
Print Assumptions C35_roundtrip.

(** Brass and RW3 are in the database but not found *)
Theorem C35_not_found : materialdb_id (get_material (F:=R) 348) = 0%Z /\ materialdb_id (get_material (F:=R) 349) = 0%Z.
Proof.
  split.
  - destruct (materialdb_find (get_material (F:=R) 348)) as [(i & B & E & M & _)|[E _]]; auto.
    apply match_ids in M; lia.
  - destruct (materialdb_find (get_material (F:=R) 349)) as [(i & B & E & M & _)|[E _]]; auto.
    apply match_ids in M; lia.
Qed.
Print Assumptions C35_not_found.

(** whatever the material (and whatever the arithmetic), the search returns the first id from 201 to
    347 whose database material matches, and 0 iff there is none *)
Theorem C35_search {F} {N : Num F} (m : Material F) :
  (exists i, (201 <= i <= 347)%Z /\ materialdb_id m = i /\ mocadi_material_match (get_material i) m = true /\
     forall j, (201 <= j < i)%Z -> mocadi_material_match (get_material j) m = false)
  \/ (materialdb_id m = 0%Z /\ forall j, (201 <= j <= 347)%Z -> mocadi_material_match (get_material j) m = false).
Proof. exact (materialdb_find m). Qed.
Print Assumptions C35_search.

(** what a match means: density within 1e-6, same constituents in order, same molar mass; the
    ionisation potential and the thickness are not compared *)
Theorem C35_match (a b : Material R) : mocadi_material_match a b = true <->
  Rabs (m_rho a - m_rho b) <= 1 / 1000000 /\ m_M a = m_M b /\
  m_atoms a = m_atoms b.
Proof.
  unfold mocadi_material_match, ncomponents.
  assert (L : forall l1 l2 : list (Target R), length l1 = length l2 -> atoms_match l1 l2 = true <-> l1 = l2).
  { induction l1 as [|[A1 Z1 s1] l1 IH]; intros [|[A2 Z2 s2] l2] E; try discriminate; [simpl; tauto|].
    cbn [atoms_match tstn tA tZ]. injection E as E. specialize (IH l2 E). numR.
    destruct (Reqb_spec s1 s2); cbn [negb]; [|split; intros H; [discriminate | injection H; intros; congruence]].
    destruct (Reqb_spec A1 A2); cbn [negb]; [|split; intros H; [discriminate | injection H; intros; congruence]].
    destruct (Z.eqb_spec Z1 Z2); cbn [negb]; [|split; intros H; [discriminate | injection H; intros; congruence]].
    subst. rewrite IH. split; intros H; [now subst | now injection H]. }
  numR. dec_norm.
  destruct (Rltb_spec (1 / 1000000) (Rabs (m_rho a - m_rho b))); [split; [discriminate | intros (X & _); lra]|].
  destruct (Z.eqb_spec (Z.of_nat (length (m_atoms a))) (Z.of_nat (length (m_atoms b)))) as [E|E]; cbn [negb].
  2:{ split; [discriminate | intros (_ & _ & X); rewrite X in E; congruence]. }
  specialize (L (m_atoms a) (m_atoms b) ltac:(lia)).
  destruct (atoms_match (m_atoms a) (m_atoms b)); cbn [negb].
  2:{ split; [discriminate | intros (_ & _ & X); apply L in X; discriminate]. }
  destruct (Reqb_spec (m_M a) (m_M b)); cbn [negb]; split; try discriminate; try tauto.
  intros _. repeat split; auto; [lra | now apply L].
Qed.
Print Assumptions C35_match.
Example C35_ex : materialdb_id (get_material (F:=R) 206) = 206%Z.
Proof. now rewrite C35_roundtrip. Qed.
