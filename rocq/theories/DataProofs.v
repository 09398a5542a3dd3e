(** * Databases: lemmas (support for C32-C35) *)
From Coq Require Import ZArith QArith Reals Qreals List Bool Lra Lia String List.
From Verif Require Import Num NumR Structures DataElements DataAbundance DataMaterials NucData SpecData.
Import ListNotations.

(** ** Exhaustive checks over a range of integers *)
Definition zseq (lo : Z) (n : nat) : list Z := map (fun k => (lo + Z.of_nat k)%Z) (seq 0 n).
Lemma zseq_In lo n z : (lo <= z < lo + Z.of_nat n)%Z -> In z (zseq lo n).
Proof.
  intros H. unfold zseq. apply in_map_iff. exists (Z.to_nat (z - lo)). split.
  - rewrite Z2Nat.id; lia.
  - apply in_seq. lia.
Qed.
Lemma zseq_In_inv lo n z : In z (zseq lo n) -> (lo <= z < lo + Z.of_nat n)%Z.
Proof.
  unfold zseq. rewrite in_map_iff. intros (k & <- & H). apply in_seq in H. lia.
Qed.
Lemma zforall (P : Z -> bool) lo n : forallb P (zseq lo n) = true ->
  forall z, (lo <= z < lo + Z.of_nat n)%Z -> P z = true.
Proof. intros H z Hz. rewrite forallb_forall in H. apply H. now apply zseq_In. Qed.

(** ** Decimal literals as rationals and reals *)
Lemma Rlit_Q d : Rlit d = Q2R (dec_Q d).
Proof.
  destruct d as [m [|p|p]]; unfold Rlit, dec_Q, Q2R, inject_Z; simpl Qnum; simpl Qden;
    try (rewrite Rinv_1; rewrite Rmult_1_r; reflexivity).
  unfold Rdiv. rewrite Pos2Z.inj_pow. reflexivity.
Qed.
Lemma Rlit_eq a b : Rlit a = Rlit b <-> Qeq_bool (dec_Q a) (dec_Q b) = true.
Proof.
  rewrite !Rlit_Q. split.
  - intros H. apply Qeq_eq_bool. now apply eqR_Qeq.
  - intros H. apply Qeq_eqR. now apply Qeq_bool_eq.
Qed.
Lemma Rlit_lt a b : (Rlit a < Rlit b)%R <-> Qle_bool (dec_Q b) (dec_Q a) = false.
Proof.
  rewrite !Rlit_Q. split.
  - intros H. apply Rlt_Qlt in H. destruct (Qle_bool (dec_Q b) (dec_Q a)) eqn:E; auto.
    apply Qle_bool_iff in E. exfalso. apply (Qlt_not_le _ _ H E).
  - intros H. apply Qlt_Rlt. apply Qnot_le_lt. intros C. apply Qle_bool_iff in C. congruence.
Qed.
Lemma Rlit_pos a : (0 < Rlit a)%R <-> (0 <? dec_mant a)%Z = true.
Proof.
  rewrite Rlit_Q. destruct a as [m e]. unfold dec_mant. rewrite Z.ltb_lt.
  assert (A : (0 < Q2R (dec_Q (Dec m e)))%R <-> (0 < dec_Q (Dec m e))%Q).
  { replace 0%R with (Q2R 0) by (unfold Q2R; simpl; lra). split; [apply Rlt_Qlt | apply Qlt_Rlt]. }
  rewrite A. unfold dec_Q, Qlt, inject_Z. destruct e as [|p|p]; simpl Qnum; simpl Qden.
  - change (10 ^ 0)%Z with 1%Z. lia.
  - assert (0 < 10 ^ Zpos p)%Z by (apply Z.pow_pos_nonneg; lia). nia.
  - lia.
Qed.
Lemma Rlit_0 d : dec_mant d = 0%Z -> Rlit d = 0%R.
Proof.
  destruct d as [m e]. simpl. intros ->. unfold Rlit. destruct e; simpl; auto. unfold Rdiv. apply Rmult_0_l.
Qed.

(** ** Elemental data (C34) *)
Lemma weights_length : length element_atomic_weights = 110%nat. Proof. reflexivity. Qed.
Lemma densities_length : length element_densities = 99%nat. Proof. reflexivity. Qed.
Lemma ipot_length : length ionisation_potentials_z = 121%nat. Proof. reflexivity. Qed.

Lemma nth_aget {A} (l : list A) z d : (0 <= z < Z.of_nat (length l))%Z -> aget l z = Ok (nth (Z.to_nat z) l d).
Proof.
  intros H. apply aget_ok. split; [lia|]. apply nth_error_nth'. lia.
Qed.

Lemma table_pos (l : list dec) n : forallb (fun z => (0 <? dec_mant (nth (Z.to_nat z) l 0%dec))%Z) (zseq 1 n) = true ->
  forall z, (1 <= z <= Z.of_nat n)%Z -> (0 < Rlit (nth (Z.to_nat z) l 0%dec))%R.
Proof. intros H z B. apply Rlit_pos. apply (zforall _ 1 n H z). lia. Qed.

Lemma weight_pos z : (1 <= z <= 109)%Z -> (0 < element_atomic_weight (F:=R) z)%R.
Proof.
  intros H. unfold element_atomic_weight.
  replace ((0 <? z) && (z <? 110))%Z with true by (symmetry; rewrite andb_true_iff, !Z.ltb_lt; lia).
  apply (table_pos _ 109); [vm_compute; reflexivity | exact H].
Qed.
Lemma density_pos z : (1 <= z <= 98)%Z -> (0 < element_density (F:=R) z)%R.
Proof.
  intros H. unfold element_density.
  replace ((0 <? z) && (z <? 99))%Z with true by (symmetry; rewrite andb_true_iff, !Z.ltb_lt; lia).
  apply (table_pos _ 98); [vm_compute; reflexivity | exact H].
Qed.
Lemma ipot_pos z : (1 <= z <= 120)%Z -> (0 < ipot (F:=R) z)%R.
Proof.
  intros H. unfold ipot.
  replace ((z <? 1) || (z >? 120))%Z with false
    by (symmetry; rewrite orb_false_iff, Z.ltb_ge, Z.gtb_ltb, Z.ltb_ge; lia).
  apply (table_pos _ 120); [vm_compute; reflexivity | exact H].
Qed.

(** ** Isotopes (C33) *)
Definition isotopes (z : Z) : list (Z * dec) :=
  if ((1 <=? z) && (z <=? 109))%Z then
    let lo := nth (Z.to_nat (z - 1)) abundance_z_index 0%Z in
    let hi := nth (Z.to_nat z) (abundance_z_index ++ [313%Z]) 0%Z in
    map (fun k => (nth k isotopes_a 0%Z, nth k isotopes_abundance 0%dec))
        (seq (Z.to_nat lo) (Z.to_nat (hi - lo)))
  else [].

Fixpoint sorted_desc (l : list Q) : bool :=
  match l with
  | x :: ((y :: _) as l') => Qle_bool y x && sorted_desc l'
  | _ => true
  end.
Fixpoint nodupb (l : list Z) : bool :=
  match l with [] => true | x :: l' => negb (existsb (Z.eqb x) l') && nodupb l' end.
Definition sumQ (l : list Q) : Q := fold_right Qplus 0%Q l.

Definition index_check (z : Z) : bool :=
  let lo := nth (Z.to_nat (z - 1)) abundance_z_index (-1)%Z in
  let hi := nth (Z.to_nat z) (abundance_z_index ++ [313%Z]) (-1)%Z in
  ((0 <=? lo) && (lo <? hi) && (hi <=? 313))%Z.
Lemma index_checked z : (1 <= z <= 109)%Z -> index_check z = true.
Proof. intros H. apply (zforall _ 1 109); [vm_compute; reflexivity | lia]. Qed.

Lemma zindex_length : length abundance_z_index = 109%nat. Proof. reflexivity. Qed.
Lemma isotopes_a_length : length isotopes_a = 313%nat. Proof. reflexivity. Qed.
Lemma abundance_length : length isotopes_abundance = 313%nat. Proof. reflexivity. Qed.

Lemma isotopes_num_out z : ~ (1 <= z <= 109)%Z -> get_isotopes_num z = Ok 0%Z.
Proof.
  intros H. unfold get_isotopes_num, abundance_z_max.
  replace ((z <? 1) || (z >? 109))%Z with true; auto.
  symmetry. rewrite orb_true_iff, Z.ltb_lt, Z.gtb_lt. lia.
Qed.

Lemma isotopes_num_in z : (1 <= z <= 109)%Z ->
  exists lo hi, (0 <= lo < hi)%Z /\ (hi <= 313)%Z /\
    get_isotopes_num z = Ok (hi - lo)%Z /\ aget abundance_z_index (z - 1) = Ok lo /\
    isotopes z = map (fun k => (nth k isotopes_a 0%Z, nth k isotopes_abundance 0%dec))
        (seq (Z.to_nat lo) (Z.to_nat (hi - lo))).
Proof.
  intros H. pose proof (index_checked z H) as C. unfold index_check in C.
  set (lo := nth (Z.to_nat (z - 1)) abundance_z_index (-1)%Z) in *.
  set (hi := nth (Z.to_nat z) (abundance_z_index ++ [313%Z]) (-1)%Z) in *.
  rewrite !andb_true_iff, !Z.leb_le, Z.ltb_lt in C.
  assert (A : aget abundance_z_index (z - 1) = Ok lo).
  { rewrite (nth_aget _ _ (-1)%Z) by (rewrite zindex_length; lia). reflexivity. }
  exists lo, hi. split; [lia|]. split; [lia|]. split; [|split; [exact A|]].
  - unfold get_isotopes_num, abundance_z_max.
    replace ((z <? 1) || (z >? 109))%Z with false
      by (symmetry; rewrite orb_false_iff, Z.ltb_ge, Z.gtb_ltb, Z.ltb_ge; lia).
    rewrite A. cbn [bind].
    destruct (Z.ltb_spec z 109).
    + rewrite (nth_aget _ _ (-1)%Z) by (rewrite zindex_length; lia). cbn [bind].
      unfold hi. rewrite app_nth1 by (rewrite zindex_length; lia). reflexivity.
    + assert (z = 109%Z) by lia. subst z. reflexivity.
  - unfold isotopes. replace ((1 <=? z) && (z <=? 109))%Z with true
      by (symmetry; rewrite andb_true_iff, !Z.leb_le; lia).
    unfold lo, hi.
    rewrite (nth_indep abundance_z_index 0%Z (-1)%Z) by (rewrite zindex_length; lia).
    rewrite (nth_indep (abundance_z_index ++ [313%Z]) 0%Z (-1)%Z)
      by (rewrite app_length, zindex_length; simpl; lia).
    reflexivity.
Qed.

Lemma isotopes_out z : ~ (1 <= z <= 109)%Z -> isotopes z = [].
Proof.
  intros H. unfold isotopes. replace ((1 <=? z) && (z <=? 109))%Z with false; auto.
  symmetry. rewrite andb_false_iff, !Z.leb_gt. lia.
Qed.

Lemma isotopes_num z : get_isotopes_num z = Ok (Z.of_nat (length (isotopes z))).
Proof.
  destruct (Z_le_dec 1 z) as [A|A]; [destruct (Z_le_dec z 109) as [B|B]|].
  - destruct (isotopes_num_in z) as (lo & hi & L & M & E & _ & ->); [lia|].
    rewrite map_length, seq_length, Z2Nat.id by lia. exact E.
  - rewrite isotopes_num_out, isotopes_out by lia. reflexivity.
  - rewrite isotopes_num_out, isotopes_out by lia. reflexivity.
Qed.

Lemma isotope_lookup z i : (0 <= i < 2147483647)%Z ->
  get_isotope_a z i = Ok (fst (nth (Z.to_nat i) (isotopes z) (0%Z, 0%dec))) /\
  get_abundance z i = Ok (snd (nth (Z.to_nat i) (isotopes z) (0%Z, 0%dec))) /\
  get_isotope z i = Ok (nth (Z.to_nat i) (isotopes z) (0%Z, 0%dec)).
Proof.
  intros B. unfold get_isotope_a, get_abundance, get_isotope, no_isotope, iinc.
  replace (i =? 2147483647)%Z with false by (symmetry; apply Z.eqb_neq; lia).
  assert (D : (1 <= z <= 109)%Z \/ ~ (1 <= z <= 109)%Z) by lia. destruct D as [D|D].
  - destruct (isotopes_num_in z D) as (lo & hi & L & M & E & A & EI). rewrite E, A. cbn [bind].
    replace (hi - lo =? 0)%Z with false by (symmetry; apply Z.eqb_neq; lia). cbn [bind].
    rewrite Z.gtb_ltb. destruct (Z.ltb_spec (hi - lo) (i + 1)) as [C|C].
    + rewrite EI. rewrite nth_overflow by (rewrite map_length, seq_length; lia). auto.
    + rewrite (nth_aget isotopes_a _ 0%Z) by (rewrite isotopes_a_length; lia).
      rewrite (nth_aget isotopes_abundance _ 0%dec) by (rewrite abundance_length; lia).
      cbn [bind]. rewrite EI.
      assert (N : nth (Z.to_nat i) (map (fun k => (nth k isotopes_a 0%Z, nth k isotopes_abundance 0%dec))
                   (seq (Z.to_nat lo) (Z.to_nat (hi - lo)))) (0%Z, 0%dec)
                = (nth (Z.to_nat (lo + i)) isotopes_a 0%Z, nth (Z.to_nat (lo + i)) isotopes_abundance 0%dec)).
      { apply nth_error_nth. rewrite nth_error_map.
        rewrite (nth_error_nth' _ 0%nat) by (rewrite seq_length; lia).
        rewrite seq_nth by lia. simpl. rewrite Z2Nat.inj_add by lia. reflexivity. }
      rewrite N. auto.
  - rewrite isotopes_num_out, isotopes_out by assumption. cbn [bind Z.eqb].
    destruct (Z.to_nat i); auto.
Qed.

Definition isotopes_check (z : Z) : bool :=
  let l := isotopes z in
  nodupb (map fst l) && sorted_desc (map (fun e => dec_Q (snd e)) l)
  && forallb (fun e => (0 <? fst e)%Z && (0 <? dec_mant (snd e))%Z) l
  && Qle_bool (sumQ (map (fun e => dec_Q (snd e)) l)) (1001 # 1000)
  && Qle_bool (999 # 1000) (sumQ (map (fun e => dec_Q (snd e)) l)).
Lemma isotopes_checked z : (1 <= z <= 109)%Z -> isotopes_check z = true.
Proof. intros H. apply (zforall _ 1 109); [vm_compute; reflexivity | lia]. Qed.

Lemma nodupb_NoDup l : nodupb l = true -> NoDup l.
Proof.
  induction l as [|x l IH]; simpl; intros H; constructor; apply andb_true_iff in H; destruct H as [A B]; auto.
  intros C. apply negb_true_iff in A. assert (existsb (Z.eqb x) l = true); [|congruence].
  apply existsb_exists. exists x. split; auto. apply Z.eqb_refl.
Qed.
Lemma sorted_desc_nth l : sorted_desc l = true ->
  forall i, (S i < length l)%nat -> (nth (S i) l 0 <= nth i l 0)%Q.
Proof.
  induction l as [|x [|y l] IH]; intros H i Hi; simpl in Hi; try lia.
  cbn [sorted_desc] in H. apply andb_true_iff in H. destruct H as [A B].
  destruct i; [apply Qle_bool_iff; exact A|]. apply IH; auto. simpl. lia.
Qed.

(** ** Materials (C32, C35) *)
Open Scope R_scope.
Definition atom_ok (t : Target R) : Prop := 0 < tA t /\ (1 <= tZ t)%Z /\ 0 < tstn t.
Definition physical (m : Material R) : Prop :=
  0 < m_rho m /\ 0 < m_M m /\ m_atoms m <> [] /\ Forall atom_ok (m_atoms m).

(** one constituent of a list constructor *)
Definition entry_ok (e : R * Z * R) : Prop :=
  match e with (a, z, s) => 0 <= a /\ (1 <= z <= 109)%Z /\ 0 < s end.

Definition entry_target (e : R * Z * R) : Target R :=
  match e with (a, z, s) => mkTarget (if fltb (lit 0) a then a else element_atomic_weight z) z s end.

Lemma entry_target_ok e : entry_ok e -> atom_ok (entry_target e).
Proof.
  destruct e as [[a z] s]. intros (A & Z & S). unfold atom_ok, entry_target. cbn [tA tZ tstn]. numR. dec_norm.
  split; [|split; [lia | assumption]].
  destruct (Rltb_spec 0 a); auto. now apply weight_pos.
Qed.

Lemma list_atoms l : forall m : Material R,
  m_atoms (fold_left (fun m e => match e with (a, z, s) => add_element m a z s end) l m)
  = m_atoms m ++ map entry_target l.
Proof.
  induction l as [|[[a z] s] l IH]; intros m; simpl; [now rewrite app_nil_r|].
  rewrite IH. unfold add_element. cbn [m_atoms]. rewrite <- app_assoc. reflexivity.
Qed.
Lemma list_rho l : forall m : Material R,
  m_rho (fold_left (fun m e => match e with (a, z, s) => add_element m a z s end) l m) = m_rho m.
Proof. induction l as [|[[a z] s] l IH]; intros m; simpl; auto. rewrite IH. reflexivity. Qed.
Lemma list_M l : Forall entry_ok l -> forall m : Material R, 0 <= m_M m ->
  let m' := fold_left (fun m e => match e with (a, z, s) => add_element m a z s end) l m in
  m_M m <= m_M m' /\ (l <> [] -> 0 < m_M m').
Proof.
  induction l as [|[[a z] s] l IH]; intros H m Hm; simpl; [split; [lra | congruence]|].
  inversion H; subst. pose proof (entry_target_ok _ H2) as (A & _ & S). cbn [entry_target tA tstn] in A, S.
  assert (0 < s * (if fltb (lit 0) a then a else element_atomic_weight z)) by now apply Rmult_lt_0_compat.
  destruct (IH H3 (add_element m a z s)) as [I1 I2].
  { unfold add_element. cbn [m_M]. numR. lra. }
  unfold add_element in I1 at 1. cbn [m_M] in I1. numR. split; [lra|]. intros _. lra.
Qed.

Lemma sum_frac_pos (l : list (Target R)) : Forall atom_ok l -> forall s, 0 <= s ->
  s <= fold_left (fun s t => s + tstn t / tA t) l s /\
  (l <> [] -> 0 < fold_left (fun s t => s + tstn t / tA t) l s).
Proof.
  induction l as [|t l IH]; intros H s Hs; simpl; [split; [lra | congruence]|].
  inversion H; subst. destruct H2 as (A & _ & S).
  assert (0 < tstn t / tA t) by (apply Rdiv_lt_0_compat; assumption).
  destruct (IH H3 (s + tstn t / tA t)) as [I1 I2]; [lra|]. split; [lra|]. intros _. lra.
Qed.

Lemma Material_list_physical l rho ip : l <> [] -> Forall entry_ok l -> 0 < rho ->
  physical (Material_list l rho ip (lit 0.0)) /\
  m_atoms (Material_list l rho ip (lit 0.0)) = map entry_target l /\
  m_rho (Material_list l rho ip (lit 0.0)) = rho.
Proof.
  intros NE H Hr. unfold Material_list.
  set (m := fold_left _ l _).
  assert (E : feqb (lit 0.0) (lit 0.0 : R) = true) by (apply Reqb_true; reflexivity).
  rewrite E. cbn [negb].
  assert (At : m_atoms m = map entry_target l) by (unfold m; rewrite list_atoms; reflexivity).
  assert (Rh : m_rho m = rho) by (unfold m; rewrite list_rho; reflexivity).
  assert (Mp : 0 < m_M m).
  { apply (list_M l H (mkMat rho (lit 0) (lit 0) ip [])); auto. cbn. lra. }
  assert (Ok_ : Forall atom_ok (m_atoms m)).
  { rewrite At. rewrite Forall_map. eapply Forall_impl; [|exact H]. intros; now apply entry_target_ok. }
  assert (NE' : m_atoms m <> []) by (rewrite At; destruct l; simpl; congruence).
  unfold material_calculate, physical. destruct (forallb _ _).
  - cbn [m_atoms m_rho m_M]. rewrite Rh. repeat split; auto.
    numR. dec_norm. apply Rdiv_lt_0_compat; [lra|]. apply sum_frac_pos; auto. lra.
  - rewrite Rh. repeat split; auto.
Qed.

Definition compound_check (c : compound) : bool :=
  (0 <? dec_mant (cmp_density c))%Z && (0 <? length (cmp_atoms c))%nat
  && forallb (fun e => match e with (a, z, s) =>
        ((0 <=? dec_mant a) && (1 <=? z) && (z <=? 109) && (0 <? dec_mant s))%Z end) (cmp_atoms c).
Lemma compounds_checked : forallb compound_check compounds = true.
Proof. vm_compute. reflexivity. Qed.
Lemma compounds_ids : map cmp_id compounds = zseq 201 149.
Proof. vm_compute. reflexivity. Qed.

Definition lit_entries (c : compound) : list (R * Z * R) :=
  map (fun e => match e with (a, z, s) => (lit a, z, lit s) end) (cmp_atoms c).

Lemma compound_ok c : compound_check c = true ->
  lit_entries c <> [] /\ Forall entry_ok (lit_entries c) /\ 0 < Rlit (cmp_density c).
Proof.
  unfold compound_check. rewrite !andb_true_iff. intros [[A B] C]. split; [|split].
  - apply Nat.ltb_lt in B. unfold lit_entries. destruct (cmp_atoms c); simpl in *; [lia | congruence].
  - unfold lit_entries. rewrite Forall_map. rewrite forallb_forall in C. apply Forall_forall.
    intros [[a z] s] Hin. specialize (C _ Hin). cbn in C. rewrite !andb_true_iff, !Z.leb_le in C.
    destruct C as [[[C1 C2] C3] C4]. unfold entry_ok. numR. split; [|split; [lia | now apply Rlit_pos]].
    destruct (Z.eq_dec (dec_mant a) 0) as [E|E].
    + rewrite (Rlit_0 a E). lra.
    + apply Rlt_le. apply Rlit_pos. apply Z.ltb_lt. lia.
  - now apply Rlit_pos.
Qed.

Lemma find_compound id : (201 <= id <= 349)%Z ->
  exists c, find (fun c => Z.eqb (cmp_id c) id) compounds = Some c /\ In c compounds /\ cmp_id c = id.
Proof.
  intros H. destruct (find _ compounds) as [c|] eqn:E.
  - exists c. split; auto. destruct (find_some _ _ E) as [I M]. split; auto. now apply Z.eqb_eq.
  - exfalso. assert (In id (map cmp_id compounds)) as I by (rewrite compounds_ids; apply zseq_In; lia).
    apply in_map_iff in I. destruct I as (c & <- & I).
    pose proof (find_none _ _ E c I) as X. cbn in X. rewrite Z.eqb_refl in X. discriminate.
Qed.
Lemma find_compound_none id : ~ (201 <= id <= 349)%Z ->
  find (fun c => Z.eqb (cmp_id c) id) compounds = None.
Proof.
  intros H. destruct (find _ compounds) as [c|] eqn:E; auto.
  destruct (find_some _ _ E) as [I M]. apply Z.eqb_eq in M. exfalso. apply H.
  assert (In id (map cmp_id compounds)) as X by (rewrite <- M; now apply in_map).
  rewrite compounds_ids in X. apply zseq_In_inv in X. lia.
Qed.

Lemma get_material_compound id : (201 <= id <= 349)%Z ->
  exists c, In c compounds /\ cmp_id c = id /\ get_material (F:=R) id = compound_material c.
Proof.
  intros H. destruct (find_compound id H) as (c & E & I & M). exists c. split; [auto|]. split; [auto|].
  unfold get_material, get_compound. rewrite E.
  replace ((0 <? id) && (id <? 99))%Z with false; auto.
  symmetry. rewrite andb_false_iff, !Z.ltb_ge. lia.
Qed.

Lemma compound_physical c : In c compounds -> physical (compound_material c) /\
  m_atoms (compound_material c) = map entry_target (lit_entries c) /\
  m_rho (compound_material c) = Rlit (cmp_density c).
Proof.
  intros I. pose proof compounds_checked as C. rewrite forallb_forall in C. specialize (C c I).
  destruct (compound_ok c C) as (A & B & D).
  destruct (Material_list_physical (lit_entries c) (Rlit (cmp_density c)) (lit 0.0) A B D) as (P1 & P2 & P3).
  unfold compound_material. fold (lit_entries c). change (lit (cmp_density c) : R) with (Rlit (cmp_density c)). auto.
Qed.

Lemma element_material z : (1 <= z <= 98)%Z ->
  get_material (F:=R) z = mkMat (element_density z) 0 (element_atomic_weight z) 0
                            [mkTarget (element_atomic_weight z) z 1].
Proof.
  intros H. unfold get_material.
  replace ((0 <? z) && (z <? 99))%Z with true by (symmetry; rewrite andb_true_iff, !Z.ltb_lt; lia).
  unfold Material_elem, add_element. cbn [m_rho m_th m_M m_I m_atoms app]. numR. dec_norm.
  destruct (Rltb_spec 0 0); [lra|]. f_equal; try lra. f_equal. f_equal. lra.
Qed.

(** weight-fraction compounds: sums of the fractions *)
Definition composition (c : compound) : list (Z * Q) :=
  map (fun e => match e with (_, z, s) => (z, dec_Q s) end) (cmp_atoms c).
Definition by_fraction (c : compound) : bool :=
  forallb (fun e => negb (Qle_bool 1 (snd e))) (composition c).
Definition same_composition (a b : list (Z * Q)) : bool :=
  forallb (fun e => Qeq_bool (count Qplus 0%Q a (fst e)) (count Qplus 0%Q b (fst e))) (a ++ b).
Definition name_compound (n : string) : option compound :=
  match find (fun e => String.eqb (snd e) n) compound_names with
  | Some e => find (fun c => Z.eqb (cmp_id c) (fst e)) compounds
  | None => None
  end.
Definition has_formula (n f : string) : bool :=
  match name_compound n, formula f with
  | Some c, Some l => same_composition (composition c) (map (fun e => (fst e, inject_Z (snd e))) l)
  | _, _ => false
  end.

(** ** The id search (C35) *)
Lemma atoms_match_refl (l : list (Target R)) : atoms_match l l = true.
Proof.
  induction l as [|t l IH]; simpl; auto.
  assert (E : forall x : R, Reqb x x = true) by (intros; now apply Reqb_true).
  rewrite !E, Z.eqb_refl. exact IH.
Qed.
Lemma match_refl (m : Material R) : mocadi_material_match m m = true.
Proof.
  unfold mocadi_material_match. rewrite Z.eqb_refl, atoms_match_refl. numR. dec_norm.
  rewrite Rminus_diag_eq by reflexivity. rewrite Rabs_R0.
  destruct (Rltb_spec (1 / 1000000) 0); [lra|]. destruct (Reqb_spec (m_M m) (m_M m)); [reflexivity | congruence].
Qed.

Definition close (a b : dec) : bool :=
  Qle_bool (dec_Q a - dec_Q b) (1 # 1000000) && Qle_bool (dec_Q b - dec_Q a) (1 # 1000000).
Fixpoint same_list (a b : list (Z * Q)) : bool :=
  match a, b with
  | [], [] => true
  | x :: a', y :: b' => Z.eqb (fst x) (fst y) && Qeq_bool (snd x) (snd y) && same_list a' b'
  | _, _ => false
  end.
Definition close_compounds (a b : compound) : bool :=
  close (cmp_density a) (cmp_density b) && same_list (composition a) (composition b).

Lemma match_close a b : In a compounds -> In b compounds ->
  mocadi_material_match (F:=R) (compound_material a) (compound_material b) = true -> close_compounds a b = true.
Proof.
  intros Ia Ib H. destruct (compound_physical a Ia) as (_ & Aa & Ra).
  destruct (compound_physical b Ib) as (_ & Ab & Rb).
  unfold mocadi_material_match in H. rewrite Ra, Rb, Aa, Ab in H.
  unfold ncomponents in H. rewrite Aa, Ab, !map_length in H.
  destruct (fltb (lit 1e-6) _) eqn:E1 in H; [discriminate|].
  destruct (Z.eqb _ _) eqn:E2 in H; [|discriminate]. cbn [negb] in H.
  destruct (atoms_match _ _) eqn:E3 in H; [|discriminate].
  unfold close_compounds. apply andb_true_iff. split.
  - numR. apply Rltb_false in E1. dec_norm. rewrite !Rlit_Q in E1.
    unfold close. apply andb_true_iff.
    assert (P : (1 / 1000000)%R = Q2R (1 # 1000000)) by (unfold Q2R; simpl; lra).
    rewrite P in E1. pose proof (Rle_abs (Q2R (dec_Q (cmp_density a)) - Q2R (dec_Q (cmp_density b)))) as X.
    pose proof (Rle_abs (- (Q2R (dec_Q (cmp_density a)) - Q2R (dec_Q (cmp_density b))))) as Y.
    rewrite Rabs_Ropp in Y.
    split; apply Qle_bool_iff; apply Rle_Qle; rewrite Q2R_minus; lra.
  - unfold lit_entries in E3. unfold composition.
    assert (L : length (cmp_atoms a) = length (cmp_atoms b)).
    { apply Z.eqb_eq in E2. unfold lit_entries in E2. rewrite !map_length in E2. lia. }
    clear - E3 L. revert L E3. generalize (cmp_atoms b). generalize (cmp_atoms a).
    induction l as [|[[a1 z1] s1] l IH]; intros [|[[a2 z2] s2] l2] L E3; simpl in L; try discriminate; auto.
    cbn [map entry_target atoms_match tstn tA tZ same_list fst snd] in *.
    destruct (feqb (lit s1) (lit s2)) eqn:Es; [|discriminate]. cbn [negb] in E3.
    destruct (feqb _ _) in E3; [|discriminate]. cbn [negb] in E3.
    destruct (Z.eqb z1 z2); [|discriminate]. cbn [negb] in E3.
    rewrite IH by (auto; lia). rewrite andb_true_r. apply Rlit_eq. now apply Reqb_true.
Qed.

Lemma find_first {A} (f : A -> bool) l r : find f l = Some r ->
  exists l1 l2, l = l1 ++ r :: l2 /\ f r = true /\ (forall x, In x l1 -> f x = false).
Proof.
  induction l as [|x l IH]; simpl; intros H; [discriminate|].
  destruct (f x) eqn:E.
  - inversion H; subst. exists [], l. simpl. repeat split; auto. intros y [].
  - destruct (IH H) as (l1 & l2 & -> & A1 & A2). exists (x :: l1), l2. repeat split; auto.
    intros y [<-|Hy]; auto.
Qed.

(** pairs of database ids with close density and equal constituents *)
Definition close_ids (i j : Z) : bool :=
  match find (fun c => Z.eqb (cmp_id c) i) compounds, find (fun c => Z.eqb (cmp_id c) j) compounds with
  | Some a, Some b => close_compounds a b
  | _, _ => false
  end.
Lemma ids_checked : forallb (fun i => forallb (fun j =>
   implb (close_ids i j) (Z.eqb i j || (Z.eqb i 201 && Z.eqb j 251) || (Z.eqb i 251 && Z.eqb j 201)))
   (zseq 201 149)) (zseq 201 149) = true.
Proof. vm_compute. reflexivity. Qed.

Lemma match_ids i j : (201 <= i <= 349)%Z -> (201 <= j <= 349)%Z ->
  mocadi_material_match (F:=R) (get_material i) (get_material j) = true ->
  i = j \/ (i = 201 /\ j = 251)%Z \/ (i = 251 /\ j = 201)%Z.
Proof.
  intros Hi Hj H.
  destruct (find_compound i Hi) as (a & Fa & Ia & Ea). destruct (find_compound j Hj) as (b & Fb & Ib & Eb).
  assert (Ga : get_material (F:=R) i = compound_material a).
  { unfold get_material, get_compound. rewrite Fa. replace ((0 <? i) && (i <? 99))%Z with false; auto.
    symmetry. rewrite andb_false_iff, !Z.ltb_ge. lia. }
  assert (Gb : get_material (F:=R) j = compound_material b).
  { unfold get_material, get_compound. rewrite Fb. replace ((0 <? j) && (j <? 99))%Z with false; auto.
    symmetry. rewrite andb_false_iff, !Z.ltb_ge. lia. }
  rewrite Ga, Gb in H. apply match_close in H; auto.
  pose proof (zforall _ 201 149 ids_checked i ltac:(lia)) as X.
  pose proof (zforall _ 201 149 X j ltac:(lia)) as Y. cbv beta in Y.
  unfold close_ids in Y. rewrite Fa, Fb, H in Y. cbn [implb] in Y.
  rewrite !orb_true_iff, !andb_true_iff, !Z.eqb_eq in Y. tauto.
Qed.

Lemma materialdb_find {F} {N : Num F} (m : Material F) :
  (exists i, (201 <= i <= 347)%Z /\ materialdb_id m = i /\ mocadi_material_match (get_material i) m = true /\
     forall j, (201 <= j < i)%Z -> mocadi_material_match (get_material j) m = false)
  \/ (materialdb_id m = 0%Z /\ forall j, (201 <= j <= 347)%Z -> mocadi_material_match (get_material j) m = false).
Proof.
  unfold materialdb_id. change (map (fun k => (201 + Z.of_nat k)%Z) (seq 0 147)) with (zseq 201 147).
  destruct (find _ _) as [i|] eqn:E.
  - left. exists i. destruct (find_first _ _ _ E) as (l1 & l2 & EL & M & B).
    assert (I : In i (zseq 201 147)) by (rewrite EL; apply in_app_iff; right; now left).
    apply zseq_In_inv in I. split; [lia|]. split; auto. split; auto.
    intros j Hj. apply B.
    assert (J : In j (zseq 201 147)) by (apply zseq_In; lia).
    rewrite EL in J. apply in_app_iff in J. destruct J as [J|[J|J]]; auto; [lia|]. exfalso.
    (* zseq is increasing: an element after i is larger *)
    assert (S : forall n lo l1 l2 i j, zseq lo n = l1 ++ i :: l2 -> In j l2 -> (i < j)%Z).
    { clear. induction n as [|n IH]; intros lo l1 l2 i j H Hj; [destruct l1; discriminate|].
      unfold zseq in H. simpl in H. rewrite <- seq_shift, map_map in H.
      assert (ZE : map (fun x => (lo + Z.of_nat (S x))%Z) (seq 0 n) = zseq (lo + 1) n).
      { apply map_ext. intros; lia. }
      rewrite ZE in H. destruct l1 as [|x l1]; simpl in H; inversion H; subst.
      - apply zseq_In_inv in Hj. lia.
      - eapply IH; eauto. }
    specialize (S _ _ _ _ _ _ EL J). lia.
  - right. split; auto. intros j Hj. apply (find_none _ _ E). apply zseq_In. lia.
Qed.

(** ** Amounts of the elements in a material *)
Definition total_stn (l : list (Target R)) : R := fold_right (fun t s => tstn t + s) 0 l.
Definition amount (m : Material R) (z : Z) : R :=
  total_stn (filter (fun t => Z.eqb (tZ t) z) (m_atoms m)).

Lemma Q2R_0 : Q2R 0 = 0. Proof. unfold Q2R. simpl. lra. Qed.
Lemma amount_count c z : In c compounds ->
  amount (compound_material c) z = Q2R (count Qplus 0%Q (composition c) z).
Proof.
  intros I. destruct (compound_physical c I) as (_ & A & _). unfold amount. rewrite A.
  unfold lit_entries, composition. generalize (cmp_atoms c).
  induction l as [|[[a z'] s] l IH]; simpl; [symmetry; apply Q2R_0|].
  unfold count in *. simpl in IH. destruct (Z.eqb z' z); simpl; auto.
  rewrite IH, Q2R_plus, <- Rlit_Q. reflexivity.
Qed.
Lemma total_count c : In c compounds ->
  total_stn (m_atoms (compound_material c)) = Q2R (sumQ (map snd (composition c))).
Proof.
  intros I. destruct (compound_physical c I) as (_ & A & _). rewrite A.
  unfold lit_entries, composition. generalize (cmp_atoms c).
  induction l as [|[[a z'] s] l IH]; simpl; [symmetry; apply Q2R_0|]. simpl in IH.
  rewrite IH, Q2R_plus, <- Rlit_Q. reflexivity.
Qed.

Definition fraction_check (c : compound) : bool :=
  implb (by_fraction c && negb (Z.eqb (cmp_id c) 318))
    (Qle_bool (sumQ (map snd (composition c))) (1000002 # 1000000)
     && Qle_bool (999998 # 1000000) (sumQ (map snd (composition c)))).
Lemma fractions_checked : forallb fraction_check compounds = true.
Proof. vm_compute. reflexivity. Qed.

Lemma by_fraction_stn c : In c compounds ->
  (forall t, In t (m_atoms (compound_material c)) -> tstn t < 1) -> by_fraction c = true.
Proof.
  intros I H. destruct (compound_physical c I) as (_ & A & _). rewrite A in H.
  unfold by_fraction. apply forallb_forall. intros e He. unfold composition in He.
  apply in_map_iff in He. destruct He as ([[a z] s] & <- & He). cbn [snd].
  specialize (H (entry_target (lit a, z, lit s))). cbn [entry_target tstn] in H.
  apply negb_true_iff. destruct (Qle_bool 1 (dec_Q s)) eqn:E; auto.
  apply Qle_bool_iff in E. apply Qle_Rle in E. rewrite <- Rlit_Q in E.
  assert (X : lit s < 1).
  { apply H. apply (in_map entry_target (lit_entries c) (lit a, z, lit s)). unfold lit_entries. apply in_map_iff. exists (a, z, s). auto. }
  numR. unfold Q2R in E. simpl in E. lra.
Qed.

Lemma count_out (add : Q -> Q -> Q) l z : (forall e, In e l -> fst e <> z) -> count add 0%Q l z = 0%Q.
Proof.
  intros H. induction l as [|e l IH]; simpl; auto.
  assert (X : Z.eqb (fst e) z = false) by (apply Z.eqb_neq; apply H; now left).
  unfold count in *. simpl. rewrite X. apply IH. intros; apply H; now right.
Qed.
Lemma same_composition_count a b z : same_composition a b = true ->
  (count Qplus 0 a z == count Qplus 0 b z)%Q.
Proof.
  intros H. unfold same_composition in H. rewrite forallb_forall in H.
  destruct (existsb (fun e => Z.eqb (fst e) z) (a ++ b)) eqn:E.
  - apply existsb_exists in E. destruct E as (e & I & M). apply Z.eqb_eq in M. subst z.
    apply Qeq_bool_eq. now apply H.
  - assert (N : forall e, In e (a ++ b) -> fst e <> z).
    { intros e I C. assert (existsb (fun e => Z.eqb (fst e) z) (a ++ b) = true); [|congruence].
      apply existsb_exists. exists e. split; auto. now apply Z.eqb_eq. }
    rewrite !count_out; [reflexivity| |]; intros e I; apply N; apply in_app_iff; auto.
Qed.
Lemma count_IZR l z : Q2R (count Qplus 0%Q (map (fun e => (fst e, inject_Z (snd e))) l) z)
  = IZR (count Z.add 0%Z l z).
Proof.
  induction l as [|e l IH]; simpl; [apply Q2R_0|]. unfold count in *. simpl.
  destruct (Z.eqb (fst e) z); auto. rewrite Q2R_plus, IH, plus_IZR. f_equal.
  unfold Q2R, inject_Z. simpl. lra.
Qed.

(** the id of a database name *)
Definition name_id (n : string) : option Z :=
  option_map fst (find (fun e => String.eqb (snd e) n) compound_names).

Lemma has_formula_amount n f l : has_formula n f = true -> formula f = Some l ->
  exists id, name_id n = Some id /\ (201 <= id <= 349)%Z /\
    forall z, amount (get_material id) z = IZR (count Z.add 0%Z l z).
Proof.
  unfold has_formula, name_compound, name_id. intros H F. rewrite F in H.
  destruct (find _ compound_names) as [e|] eqn:E; [|discriminate]. exists (fst e). split; [reflexivity|].
  destruct (find _ compounds) as [c|] eqn:G; [|discriminate].
  destruct (find_some _ _ G) as [I M]. apply Z.eqb_eq in M.
  assert (B : (201 <= fst e <= 349)%Z).
  { assert (X : In (cmp_id c) (map cmp_id compounds)) by now apply in_map.
    rewrite compounds_ids in X. apply zseq_In_inv in X. lia. }
  split; auto. intros z.
  assert (Ga : get_material (F:=R) (fst e) = compound_material c).
  { unfold get_material, get_compound. rewrite G. replace ((0 <? fst e) && (fst e <? 99))%Z with false; auto.
    symmetry. rewrite andb_false_iff, !Z.ltb_ge. lia. }
  rewrite Ga, amount_count by assumption. rewrite <- count_IZR. apply Qeq_eqR.
  now apply same_composition_count.
Qed.

Definition formula_exceptions : list string := ["P10"; "PVC"; "Na2CO3"]%string.
Lemma formulas_checked : forallb (fun e =>
    match formula (snd e) with
    | None => true
    | Some _ => existsb (String.eqb (snd e)) formula_exceptions || has_formula (snd e) (snd e)
    end) compound_names = true.
Proof. vm_compute. reflexivity. Qed.
Lemma textbook_checked : forallb (fun e =>
    String.eqb (fst e) "Polyolefin" || has_formula (fst e) (snd e)) textbook = true.
Proof. vm_compute. reflexivity. Qed.
