(** * Equality of cache keys (support for C01, C03, C06) *)
From Coq Require Import ZArith List Bool Lia Reals Lra Floats SpecFloat.
From Verif Require Import Num NumR NumF Structures EnergyTable Spline Integrator Calculations
  Storage CacheProofs CacheFresh.
Import ListNotations.

(** ** Generic facts *)
Section Generic.
  Context {F : Type} {N : Num F}.
  Hypothesis eqb_sym : forall x y : F, feqb x y = feqb y x.
  Hypothesis dist_sym : forall x y : F, fabs (fsub x y) = fabs (fsub y x).

  Lemma proj_eqb_sym p q : proj_eqb p q = proj_eqb q p.
  Proof. unfold proj_eqb. now rewrite (eqb_sym (pA p)), (eqb_sym (pZ p)), (eqb_sym (pQ p)). Qed.
  Lemma atoms_eqb_sym : forall l1 l2 : list (Target F), atoms_eqb l1 l2 = atoms_eqb l2 l1.
  Proof.
    induction l1 as [|a l1 IH]; intros [|b l2]; simpl; auto.
    now rewrite (eqb_sym (tstn a)), (eqb_sym (tA a)), (Z.eqb_sym (tZ a)), IH.
  Qed.
  Lemma mat_eqb_sym m n : mat_eqb m n = mat_eqb n m.
  Proof.
    unfold mat_eqb. now rewrite dist_sym, (Z.eqb_sym (ncomponents m)), (eqb_sym (m_I m)),
      atoms_eqb_sym, (eqb_sym (m_M m)).
  Qed.
  Lemma config_eqb_sym c d : config_eqb c d = config_eqb d c.
  Proof.
    unfold config_eqb. now rewrite dist_sym, (Z.eqb_sym (c_scat c)), (Z.eqb_sym (c_zeff c)),
      (Z.eqb_sym (c_corr c)), (Z.eqb_sym (c_calc c)), (Z.eqb_sym (c_low c)).
  Qed.
  Lemma dp_eqb_sym a b : dp_eqb a b = dp_eqb b a.
  Proof.
    unfold dp_eqb. now rewrite mat_eqb_sym, proj_eqb_sym, config_eqb_sym.
  Qed.
End Generic.

Section Exact.
  Context {F : Type} {N : Num F}.
  Variable good : F -> Prop.
  Hypothesis eqb_eq : forall x y, good x -> good y -> feqb x y = true -> x = y.

  Definition good_key (p : Projectile F) (t : Material F) (c : Config F) : Prop :=
    good (pA p) /\ good (pZ p) /\ good (pQ p) /\ good (m_M t) /\ good (m_I t) /\
    Forall (fun a => good (tA a) /\ good (tstn a)) (m_atoms t).

  Lemma atoms_eqb_eq : forall l1 l2 : list (Target F),
    length l1 = length l2 ->
    Forall (fun a => good (tA a) /\ good (tstn a)) l1 ->
    Forall (fun a => good (tA a) /\ good (tstn a)) l2 ->
    atoms_eqb l1 l2 = true -> l1 = l2.
  Proof.
    induction l1 as [|a l1 IH]; intros [|b l2] L G1 G2 H; simpl in *; try discriminate; auto.
    inversion G1 as [|? ? [? ?] ?]; inversion G2 as [|? ? [? ?] ?]; subst.
    destruct (feqb (tstn a) (tstn b)) eqn:E1; simpl in H; [|discriminate].
    destruct (feqb (tA a) (tA b)) eqn:E2; simpl in H; [|discriminate].
    destruct (Z.eqb_spec (tZ a) (tZ b)) as [E3|]; simpl in H; [|discriminate].
    apply eqb_eq in E1; auto. apply eqb_eq in E2; auto.
    f_equal; [destruct a, b; simpl in *; congruence|]. apply IH; auto.
  Qed.

  Lemma key_exact p t c p' t' c' : good_key p t c -> good_key p' t' c' ->
    proj_eqb p' p = true -> mat_eqb t' t = true -> config_eqb c' c = true ->
    same_data p t c p' t' c'.
  Proof.
    intros (G1 & G2 & G3 & G4 & G5 & G6) (H1 & H2 & H3 & H4 & H5 & H6) EP EM EC.
    unfold proj_eqb in EP. apply andb_prop in EP. destruct EP as [EP E3].
    apply andb_prop in EP. destruct EP as [E1 E2].
    unfold mat_eqb in EM. destruct (fltb _ _); [discriminate|].
    destruct (Z.eqb_spec (ncomponents t') (ncomponents t)) as [EN|]; simpl in EM; [|discriminate].
    destruct (feqb (m_I t') (m_I t)) eqn:EI; simpl in EM; [|discriminate].
    destruct (atoms_eqb (m_atoms t') (m_atoms t)) eqn:EA; simpl in EM; [|discriminate].
    destruct (feqb (m_M t') (m_M t)) eqn:EMM; simpl in EM; [|discriminate].
    unfold config_eqb in EC.
    destruct (Z.eqb_spec (c_scat c') (c_scat c)); simpl in EC; [|discriminate].
    destruct (Z.eqb_spec (c_zeff c') (c_zeff c)); simpl in EC; [|discriminate].
    destruct (Z.eqb_spec (c_corr c') (c_corr c)); simpl in EC; [|discriminate].
    destruct (Z.eqb_spec (c_calc c') (c_calc c)); simpl in EC; [|discriminate].
    destruct (Z.eqb_spec (c_low c') (c_low c)); simpl in EC; [|discriminate].
    unfold same_data. apply atoms_eqb_eq in EA; auto.
    - repeat split; auto; symmetry; auto.
    - unfold ncomponents in EN. lia.
  Qed.
End Exact.

(** ** The two instances *)
Lemma R_eqb_sym (x y : R) : feqb x y = feqb y x.
Proof. simpl. destruct (Reqb_spec x y), (Reqb_spec y x); congruence. Qed.
Lemma R_dist_sym (x y : R) : fabs (fsub x y) = fabs (fsub y x).
Proof. simpl. apply Rabs_minus_sym. Qed.
Lemma R_eqb_eq (x y : R) : True -> True -> feqb x y = true -> x = y.
Proof. intros _ _. simpl. apply Reqb_true. Qed.

Lemma SFabs_round p e : SFabs (binary_round 53 1024 false p e) = SFabs (binary_round 53 1024 true p e).
Proof.
  unfold binary_round. destruct (shl_align p e _) as [m' e'].
  unfold binary_round_aux. destruct (shr_fexp 53 1024 (Z.pos m') e' loc_Exact) as [mrs e''].
  destruct (shr_fexp 53 1024 _ e'' loc_Exact) as [mrs' e''']. destruct (shr_m mrs'); auto.
  destruct (_ <=? _)%Z; auto.
Qed.
Lemma SFabs_normalize z e s :
  SFabs (binary_normalize 53 1024 z e s) = SFabs (binary_normalize 53 1024 (- z) e s).
Proof. destruct z as [|p|p]; simpl Z.opp; unfold binary_normalize; auto using SFabs_round, eq_sym. Qed.

Lemma SFabs_sub x y : SFabs (SFsub 53 1024 x y) = SFabs (SFsub 53 1024 y x).
Proof.
  destruct x as [sx|sx| |sx mx ex], y as [sy|sy| |sy my ey];
    try (try (destruct sx); try (destruct sy); reflexivity).
  unfold SFsub. rewrite (Z.min_comm ey ex), SFabs_normalize. f_equal. f_equal. lia.
Qed.

Lemma F_dist_sym (x y : float) : PrimFloat.abs (x - y)%float = PrimFloat.abs (y - x)%float.
Proof.
  apply Prim2SF_inj. rewrite !abs_spec, !sub_spec. unfold SF64sub. apply SFabs_sub.
Qed.

Lemma SFcompare_sym x y : SFcompare y x = option_map CompOpp (SFcompare x y).
Proof.
  destruct x as [sx|sx| |sx mx ex], y as [sy|sy| |sy my ey]; simpl; auto;
    try (destruct sx); try (destruct sy); simpl; auto;
    rewrite (Z.compare_antisym ex ey); destruct (ex ?= ey)%Z; simpl; auto;
    change (Pos.compare_cont Eq my mx) with (my ?= mx)%positive;
    change (Pos.compare_cont Eq mx my) with (mx ?= my)%positive;
    rewrite (Pos.compare_antisym mx my); destruct (mx ?= my)%positive; auto.
Qed.

Lemma F_eqb_sym (x y : float) : (x =? y)%float = (y =? x)%float.
Proof.
  rewrite !eqb_spec. unfold SFeqb. rewrite (SFcompare_sym (Prim2SF y) (Prim2SF x)).
  destruct (SFcompare (Prim2SF y) (Prim2SF x)) as [[]|]; reflexivity.
Qed.

(** not the negative zero *)
Definition not_negzero (x : float) : Prop := Prim2SF x <> S754_zero true.

Lemma F_eqb_eq (x y : float) : not_negzero x -> not_negzero y -> (x =? y)%float = true -> x = y.
Proof.
  unfold not_negzero. intros Hx Hy H. rewrite eqb_spec in H. apply Prim2SF_inj.
  revert Hx Hy H. unfold SFeqb. generalize (Prim2SF x) (Prim2SF y). clear x y. intros x y Hx Hy H.
  destruct x as [sx|sx| |sx mx ex], y as [sy|sy| |sy my ey]; simpl in H;
    try (destruct sx); try (destruct sy); simpl in H; try discriminate; auto; try congruence;
    destruct (Z.compare_spec ex ey); simpl in H; try discriminate; subst;
    change (Pos.compare_cont Eq mx my) with (mx ?= my)%positive in H;
    destruct (Pos.compare_spec mx my); simpl in H; try discriminate; subst; reflexivity.
Qed.

(** ** Specification of key equality (C06) over the reals *)
Section SpecR.
  Local Open Scope R_scope.
  Definition key_equiv (p : Projectile R) (t : Material R) (c : Config R)
             (p' : Projectile R) (t' : Material R) (c' : Config R) : Prop :=
    (pA p = pA p' /\ pZ p = pZ p' /\ pQ p = pQ p') /\
    (Rabs (m_rho t - m_rho t') <= 1 / 1000000 /\ m_I t = m_I t' /\ m_M t = m_M t' /\
     m_atoms t = m_atoms t') /\
    (c_zeff c = c_zeff c' /\ c_corr c = c_corr c' /\ c_calc c = c_calc c' /\
     c_low c = c_low c' /\ c_scat c = c_scat c' /\
     Rabs (c_sfac c - c_sfac c') <= 1 / 1000).

  Lemma atoms_eqb_R : forall l1 l2 : list (Target R), length l1 = length l2 ->
    (atoms_eqb l1 l2 = true <-> l1 = l2).
  Proof.
    intros l1 l2 L. split.
    - intros H. eapply (atoms_eqb_eq (fun _ => True)); eauto.
      + apply R_eqb_eq.
      + now apply Forall_forall.
      + now apply Forall_forall.
    - intros <-. clear L. induction l1 as [|a l IH]; simpl; auto.
      destruct (Reqb_spec (tstn a) (tstn a)); [|congruence]. simpl.
      destruct (Reqb_spec (tA a) (tA a)); [|congruence]. simpl. now rewrite Z.eqb_refl.
  Qed.

  Lemma proj_eqb_R (p q : Projectile R) :
    proj_eqb p q = true <-> pA p = pA q /\ pZ p = pZ q /\ pQ p = pQ q.
  Proof.
    unfold proj_eqb. simpl. rewrite !andb_true_iff, !Reqb_true. tauto.
  Qed.

  Lemma mat_eqb_R (m n : Material R) :
    mat_eqb m n = true <-> Rabs (m_rho m - m_rho n) <= 1 / 1000000 /\ m_I m = m_I n /\
      m_M m = m_M n /\ m_atoms m = m_atoms n.
  Proof.
    unfold mat_eqb, ncomponents. numR. dec_norm.
    destruct (Rltb_spec (1/1000000) (Rabs (m_rho m - m_rho n))).
    { split; [discriminate|]. intros (H & _). lra. }
    destruct (Z.eqb_spec (Z.of_nat (length (m_atoms m))) (Z.of_nat (length (m_atoms n)))); simpl.
    2:{ split; [discriminate|]. intros (_ & _ & _ & H). rewrite H in n1. congruence. }
    destruct (Reqb_spec (m_I m) (m_I n)); simpl.
    2:{ split; [discriminate|]. tauto. }
    destruct (atoms_eqb (m_atoms m) (m_atoms n)) eqn:EA; simpl.
    - apply atoms_eqb_R in EA; [|lia].
      destruct (Reqb_spec (m_M m) (m_M n)); simpl.
      + split; auto. intros _. repeat split; auto. lra.
      + split; [discriminate|]. tauto.
    - split; [discriminate|]. intros (_ & _ & _ & H).
      apply atoms_eqb_R in H; [congruence|lia].
  Qed.

  Lemma config_eqb_R (c d : Config R) :
    config_eqb c d = true <-> c_zeff c = c_zeff d /\ c_corr c = c_corr d /\ c_calc c = c_calc d /\
      c_low c = c_low d /\ c_scat c = c_scat d /\ Rabs (c_sfac c - c_sfac d) <= 1 / 1000.
  Proof.
    unfold config_eqb. numR. dec_norm.
    destruct (Z.eqb_spec (c_scat c) (c_scat d)); simpl; [|split; [discriminate|tauto]].
    destruct (Z.eqb_spec (c_zeff c) (c_zeff d)); simpl; [|split; [discriminate|tauto]].
    destruct (Z.eqb_spec (c_corr c) (c_corr d)); simpl; [|split; [discriminate|tauto]].
    destruct (Z.eqb_spec (c_calc c) (c_calc d)); simpl; [|split; [discriminate|tauto]].
    destruct (Z.eqb_spec (c_low c) (c_low d)); simpl; [|split; [discriminate|tauto]].
    destruct (Rltb_spec (1/1000) (Rabs (c_sfac c - c_sfac d))).
    - split; [discriminate|]. intros H. lra.
    - split; auto. intros _. repeat split; auto. lra.
  Qed.

  Lemma key_match_R p t c (e : DataPoint R) :
    key_match p t c e = true <-> key_equiv (dp_p e) (dp_m e) (dp_c e) p t c.
  Proof.
    unfold key_match, key_equiv.
    rewrite !andb_true_iff, proj_eqb_R, mat_eqb_R, config_eqb_R. tauto.
  Qed.
End SpecR.
