(** * Properties C29-C31: materials and layers *)
From Coq Require Import ZArith Reals List Bool Lra Lia.
From Verif Require Import Num NumR Structures Vector DataProofs PropData.
Import ListNotations.
Local Open Scope R_scope.

Definition Rsum (l : list R) : R := fold_right Rplus 0 l.
Lemma Rsum_app a b : Rsum (a ++ b) = Rsum a + Rsum b.
Proof. unfold Rsum. induction a; cbn; [ring|]. rewrite IHa. ring. Qed.
Lemma Rsum_scale {A} (f : A -> R) k l : Rsum (map (fun x => f x * k) l) = Rsum (map f l) * k.
Proof. unfold Rsum. induction l; cbn; [ring|]. rewrite IHl. ring. Qed.
Lemma Rsum_pos {A} (f : A -> R) l : (forall x, In x l -> 0 < f x) -> l <> [] -> 0 < Rsum (map f l).
Proof.
  intros H NE. destruct l as [|a l]; [contradiction|]. clear NE. revert a H. unfold Rsum.
  induction l as [|b l IH]; intros a H; cbn.
  - pose proof (H a (or_introl eq_refl)). lra.
  - pose proof (H a (or_introl eq_refl)).
    assert (0 < fold_right Rplus 0 (map f (b :: l))) by (apply IH; intros; apply H; now right).
    cbn in *. lra.
Qed.
Lemma Rsum_ge_one {A} (f : A -> R) l x : (forall y, In y l -> 0 < f y) -> In x l -> f x <= Rsum (map f l).
Proof.
  unfold Rsum. induction l as [|a l IH]; intros H HI; [contradiction|]. cbn.
  assert (P : 0 <= fold_right Rplus 0 (map f l)).
  { clear IH HI. assert (X : forall y, In y l -> 0 < f y) by (intros; apply H; now right).
    clear H. induction l as [|b l IHl]; cbn; [lra|]. pose proof (X b (or_introl eq_refl)).
    assert (0 <= fold_right Rplus 0 (map f l)) by (apply IHl; intros; apply X; now right). lra. }
  destruct HI as [->|HI]; [lra|]. pose proof (H a (or_introl eq_refl)).
  assert (f x <= fold_right Rplus 0 (map f l)) by (apply IH; auto; intros; apply H; now right). lra.
Qed.

(** ** What a description of a material means *)

(** constituents as the user gives them: mass number (0: take the atomic weight of the element),
    atomic number, number of atoms or weight fraction *)
Definition entry : Type := R * Z * R.
Definition mass_of (x : entry) : R :=
  match x with (a, z, _) => if Rlt_dec 0 a then a else element_atomic_weight z end.
Definition stn_of (x : entry) : R := snd x.
Definition z_of (x : entry) : Z := snd (fst x).

Lemma mass_pos a z s : 0 < a \/ (1 <= z <= 109)%Z -> 0 < mass_of (a, z, s).
Proof.
  intros H. unfold mass_of. destruct (Rlt_dec 0 a); [assumption|]. destruct H as [H|H]; [contradiction|].
  destruct (proj1 (C34_atomic_weight z) H) as (d & _ & -> & P). exact P.
Qed.

Definition targets (l : list entry) : list (Target R) :=
  map (fun x => mkTarget (mass_of x) (z_of x) (stn_of x)) l.

Lemma lit0R : (lit 0 : R) = 0. Proof. numR. dec_norm. lra. Qed.
Lemma lit0R' : (lit 0.0 : R) = 0. Proof. numR. dec_norm. lra. Qed.
Lemma lit1R : (lit 1.0 : R) = 1. Proof. numR. dec_norm. lra. Qed.

Lemma add_elements (l : list entry) : forall m,
  fold_left (fun m e => match e with (a, z, s) => add_element m a z s end) l m =
  mkMat (m_rho m) (m_th m) (m_M m + Rsum (map (fun x => stn_of x * mass_of x) l)) (m_I m)
        (m_atoms m ++ targets l).
Proof.
  induction l as [|[[a z] s] l IH]; intros m; cbn [fold_left].
  - unfold Rsum. cbn. rewrite app_nil_r, Rplus_0_r. destruct m; reflexivity.
  - rewrite IH. unfold add_element. cbn [m_rho m_th m_M m_I m_atoms]. rewrite lit0R. numR.
    unfold targets. cbn [map]. rewrite <- app_assoc. cbn [app].
    assert (X : (if Rltb 0 a then a else element_atomic_weight z) = mass_of (a, z, s)).
    { unfold mass_of. destruct (Rltb_spec 0 a); destruct (Rlt_dec 0 a); try contradiction; reflexivity. }
    rewrite X. unfold Rsum. cbn [fold_right stn_of z_of fst snd]. f_equal. ring.
Qed.

Lemma sum_fold (l : list entry) s :
  fold_left (fun s t => fadd s (fdiv (tstn t) (tA t))) (targets l) s =
  s + Rsum (map (fun x => stn_of x / mass_of x) l).
Proof.
  revert s. induction l as [|x l IH]; intros s; cbn; [unfold Rsum; cbn; ring|].
  fold (targets l). rewrite IH. unfold Rsum. cbn. ring.
Qed.

(** the list constructor *)
Lemma list_ctor l rho ip :
  Material_list l rho ip 0 =
  mkMat rho 0 (if forallb (fun x => Rltb (stn_of x) 1) l
               then 1 / Rsum (map (fun x => stn_of x / mass_of x) l)
               else Rsum (map (fun x => stn_of x * mass_of x) l)) ip (targets l).
Proof.
  unfold Material_list. rewrite lit0R', add_elements. numR. rewrite lit0R || idtac.
  destruct (Reqb_spec 0 0) as [_|X]; [|contradiction]. cbn [negb m_rho m_th m_M m_I m_atoms app].
  unfold material_calculate. cbn [m_rho m_th m_M m_I m_atoms].
  assert (F : forallb (fun t => fltb (tstn t) (lit 1.0)) (targets l) = forallb (fun x => Rltb (stn_of x) 1) l).
  { rewrite lit1R. clear. induction l as [|x l IH]; [reflexivity|]. cbn [targets map forallb tstn]. numR.
    f_equal. exact IH. }
  numR. rewrite F. clear F.
  replace (Rlit 0) with 0 by (dec_norm; lra).
  destruct (forallb (fun x : entry => Rltb (stn_of x) 1) l).
  - f_equal. pose proof (sum_fold l 0) as X. cbn in X. rewrite X, Rplus_0_l.
    replace (Rlit 1.0) with 1 by (dec_norm; lra). reflexivity.
  - f_equal. ring.
Qed.

(** ** C29 *)

Definition atoms_given (l : list entry) : Prop :=
  Forall (fun x => 1 <= stn_of x /\ 0 < mass_of x) l /\ l <> [].
Definition weights_given (l : list entry) : Prop :=
  Forall (fun x => 0 < stn_of x < 1 /\ 0 < mass_of x) l /\ l <> [].

Lemma wfrac_nth (m : Material R) l i x : m_atoms m = targets l -> nth_error l i = Some x ->
  weight_fraction m (Z.of_nat i) =
  Ok (if Rlt_dec (stn_of x) 1 then stn_of x else stn_of x * mass_of x / m_M m).
Proof.
  intros E H. unfold weight_fraction. rewrite E. unfold aget.
  rewrite Nat2Z.id. unfold targets. rewrite nth_error_map, H.
  destruct (Z.ltb_spec (Z.of_nat i) 0); [lia|]. cbn [bind option_map]. unfold wfrac.
  cbn [tstn tA]. rewrite lit1R. numR.
  destruct (Rltb_spec (stn_of x) 1); destruct (Rlt_dec (stn_of x) 1); try contradiction; reflexivity.
Qed.

(** numbers of atoms: the weight fraction is the share of the molar mass; they are positive, at most
    1 and sum to 1 *)
Theorem C29_numbers_of_atoms l rho ip :
  atoms_given l ->
  let m := Material_list l rho ip 0 in
  let M := Rsum (map (fun x => stn_of x * mass_of x) l) in
  m_M m = M /\
  (forall i x, nth_error l i = Some x ->
     exists f, weight_fraction m (Z.of_nat i) = Ok f /\ f = stn_of x * mass_of x / M /\ 0 < f <= 1) /\
  Rsum (map (fun x => stn_of x * mass_of x / M) l) = 1.
Proof.
  intros [H NE]. cbv zeta. rewrite list_ctor. rewrite Forall_forall in H.
  assert (F : forallb (fun x => Rltb (stn_of x) 1) l = false).
  { destruct l as [|x l]; [contradiction|]. cbn [forallb]. destruct (H x (or_introl eq_refl)) as [A _].
    destruct (Rltb_spec (stn_of x) 1); [lra|reflexivity]. }
  rewrite F. cbn [m_M].
  assert (P : forall x, In x l -> 0 < stn_of x * mass_of x).
  { intros x Hx. destruct (H x Hx). apply Rmult_lt_0_compat; lra. }
  pose proof (Rsum_pos _ l P NE) as MP. set (M := Rsum (map (fun x => stn_of x * mass_of x) l)) in *.
  split; [reflexivity|]. split.
  - intros i x Hi. eexists. split; [eapply wfrac_nth; [reflexivity|exact Hi]|]. cbn [m_M]. fold M.
    pose proof (nth_error_In _ _ Hi) as Hx. destruct (H x Hx) as [S1 _]. pose proof (P x Hx) as PX.
    destruct (Rlt_dec (stn_of x) 1); [lra|]. split; [reflexivity|]. split.
    + apply Rdiv_lt_0_compat; assumption.
    + apply Rmult_le_reg_r with M; [assumption|]. unfold Rdiv. rewrite Rmult_assoc, Rinv_l by lra.
      rewrite Rmult_1_r, Rmult_1_l. exact (Rsum_ge_one (fun x => stn_of x * mass_of x) l x P Hx).
  - unfold Rdiv. rewrite (Rsum_scale (fun x => stn_of x * mass_of x) (/ M) l). fold M.
    apply Rinv_r. lra.
Qed.
Print Assumptions C29_numbers_of_atoms.

(** weight fractions: returned as given; the molar fractions derived from them sum to 1 *)
Theorem C29_weight_fractions l rho ip :
  weights_given l ->
  let m := Material_list l rho ip 0 in
  (forall i x, nth_error l i = Some x -> weight_fraction m (Z.of_nat i) = Ok (stn_of x)) /\
  0 < m_M m /\
  Rsum (map (mfrac m) (m_atoms m)) = 1.
Proof.
  intros [H NE]. cbv zeta. rewrite list_ctor. rewrite Forall_forall in H.
  assert (F : forallb (fun x => Rltb (stn_of x) 1) l = true).
  { apply forallb_forall. intros x Hx. destruct (H x Hx) as [A _]. apply Rltb_true. lra. }
  rewrite F. cbn [m_M m_atoms].
  assert (P : forall x, In x l -> 0 < stn_of x / mass_of x).
  { intros x Hx. destruct (H x Hx). apply Rdiv_lt_0_compat; lra. }
  pose proof (Rsum_pos _ l P NE) as MP.
  set (S := Rsum (map (fun x => stn_of x / mass_of x) l)) in *.
  split; [|split].
  - intros i x Hi. erewrite wfrac_nth; [|reflexivity|exact Hi].
    destruct (H x (nth_error_In _ _ Hi)) as [A _]. destruct (Rlt_dec (stn_of x) 1); [reflexivity|lra].
  - unfold Rdiv. rewrite Rmult_1_l. now apply Rinv_0_lt_compat.
  - transitivity (Rsum (map (fun x => stn_of x / mass_of x * (1 / S)) l)).
    + unfold targets. rewrite map_map. f_equal. apply map_ext_in. intros x Hx.
      destruct (H x Hx) as [A B]. unfold mfrac. cbn [tstn tA m_M]. rewrite lit1R. numR.
      destruct (Rltb_spec (stn_of x) 1); [|lra]. fold S. field. split; lra.
    + rewrite (Rsum_scale (fun x => stn_of x / mass_of x) (1 / S) l). fold S. field. lra.
Qed.
Print Assumptions C29_weight_fractions.

(** adding the elements one by one *)
Definition stepwise (l : list entry) (rho ip : R) : Material R :=
  fold_left (fun m e => match e with (a, z, s) => add_element m a z s end) l (mkMat rho 0 0 ip []).

Theorem C29_stepwise l rho ip : atoms_given l -> stepwise l rho ip = Material_list l rho ip 0.
Proof.
  intros [H NE]. unfold stepwise. rewrite add_elements, list_ctor. cbn [m_rho m_th m_M m_I m_atoms app].
  rewrite Forall_forall in H.
  assert (F : forallb (fun x => Rltb (stn_of x) 1) l = false).
  { destruct l as [|x l]; [contradiction|]. cbn [forallb]. destruct (H x (or_introl eq_refl)) as [A _].
    destruct (Rltb_spec (stn_of x) 1); [lra|reflexivity]. }
  rewrite F. f_equal. ring.
Qed.
Print Assumptions C29_stepwise.

(** ... gives another molar mass when the constituents are weight fractions: 10% hydrogen, 90% oxygen *)
Theorem C29_stepwise_weights_refuted :
  exists l rho ip, weights_given l /\ Rsum (map stn_of l) = 1 /\
    m_M (stepwise l rho ip) <> m_M (Material_list l rho ip 0).
Proof.
  exists [(1, 1%Z, 1 / 10); (16, 8%Z, 9 / 10)], 1, 0.
  assert (W : weights_given [(1, 1%Z, 1 / 10); (16, 8%Z, 9 / 10)]).
  { split; [|discriminate]. constructor; [|constructor; [|constructor]]; (split; [cbn; lra|]);
      unfold mass_of; destruct (Rlt_dec _ _); lra. }
  split; [assumption|]. split; [unfold Rsum; cbn; lra|].
  unfold stepwise. rewrite add_elements, list_ctor. cbn [m_M].
  replace (forallb (fun x => Rltb (stn_of x) 1) [(1, 1%Z, 1 / 10); (16, 8%Z, 9 / 10)]) with true.
  2: { cbn. destruct (Rltb_spec (1 / 10) 1); [|lra]. destruct (Rltb_spec (9 / 10) 1); [|lra]. reflexivity. }
  unfold Rsum. cbn [map fold_right stn_of snd mass_of].
  destruct (Rlt_dec 0 1); [|lra]. destruct (Rlt_dec 0 16); [|lra]. lra.
Qed.
Print Assumptions C29_stepwise_weights_refuted.

(** a description mixing numbers below 1 with others is neither: its weight fractions do not sum to 1 *)
Theorem C29_mixed_refuted :
  exists l rho ip, Forall (fun x => 0 < stn_of x /\ 0 < mass_of x) l /\ l <> [] /\
    Rsum (map (wfrac (Material_list l rho ip 0)) (m_atoms (Material_list l rho ip 0))) <> 1.
Proof.
  exists [(1, 1%Z, 1 / 2); (16, 8%Z, 1)], 1, 0. split; [|split; [discriminate|]].
  - constructor; [|constructor; [|constructor]]; (split; [cbn; lra|]); unfold mass_of; destruct (Rlt_dec _ _); lra.
  - rewrite list_ctor. cbn [m_M m_atoms].
    replace (forallb (fun x => Rltb (stn_of x) 1) [(1, 1%Z, 1 / 2); (16, 8%Z, 1)]) with false.
    2: { cbn. destruct (Rltb_spec (1 / 2) 1); [|lra]. destruct (Rltb_spec 1 1); [lra|]. reflexivity. }
    unfold targets, Rsum. cbn [map fold_right stn_of z_of fst snd mass_of].
    destruct (Rlt_dec 0 1); [|lra]. destruct (Rlt_dec 0 16); [|lra].
    unfold wfrac. cbn [tstn tA m_M]. rewrite lit1R. numR.
    destruct (Rltb_spec (1 / 2) 1); [|lra]. destruct (Rltb_spec 1 1); [lra|]. lra.
Qed.
Print Assumptions C29_mixed_refuted.

(** water, H2O, with tabulated atomic weights *)
Example C29_case : atoms_given [(0, 1%Z, 2); (0, 8%Z, 1)] /\ weights_given [(0, 1%Z, 1 / 10); (16, 8%Z, 9 / 10)].
Proof.
  split; (split; [|discriminate]); (constructor; [|constructor; [|constructor]]); (split; [cbn; lra|]);
    apply mass_pos; (left; lra) || (right; lia).
Qed.

(** ** C30 *)
Theorem C30_thickness_cm (m : Material R) x : m_rho m <> 0 ->
  thickness_cm (set_thickness_cm m x) = x /\ m_th (set_thickness_cm m x) = m_rho m * x.
Proof. intros H. unfold thickness_cm, set_thickness_cm. cbn. numR. split; [field; assumption|reflexivity]. Qed.
Print Assumptions C30_thickness_cm.

Theorem C30_thickness (m : Material R) x : m_rho m <> 0 ->
  m_th (set_thickness m x) = x /\ m_th m = m_rho m * thickness_cm m /\
  m_rho (set_density m x) = x /\ m_th (set_density m x) = m_th m.
Proof.
  intros H. unfold thickness_cm. cbn. numR. repeat split; field; assumption.
Qed.
Print Assumptions C30_thickness.

(** number_density(i) for every int i; a vector has fewer than 2^63 elements *)
Theorem C30_number_density_i (m : Material R) i :
  (-2147483648 <= i <= 2147483647)%Z -> (Z.of_nat (length (m_atoms m)) < 2 ^ 63)%Z ->
  ((0 <= i < ncomponents m)%Z ->
     exists t, aget (m_atoms m) i = Ok t /\ molar_fraction m i = Ok (mfrac m t) /\
       number_density_i m i = Ok (number_density m * mfrac m t) /\
       number_density_cm2_i m i = Ok (number_density_cm2 m * mfrac m t)) /\
  (~ (0 <= i < ncomponents m)%Z -> number_density_i m i = Ok 0 /\ number_density_cm2_i m i = Ok 0).
Proof.
  intros Hi Hn. unfold number_density_i, number_density_cm2_i, molar_fraction, index_ge_size, ncomponents.
  rewrite lit0R'. split; intros H.
  - destruct (nth_error (m_atoms m) (Z.to_nat i)) as [t|] eqn:E.
    2: { apply nth_error_None in E. lia. }
    assert (G : aget (m_atoms m) i = Ok t).
    { unfold aget. destruct (Z.ltb_spec i 0); [lia|]. now rewrite E. }
    exists t. rewrite G. destruct (Z.ltb_spec i 0); [lia|]. rewrite Z.geb_leb.
    destruct (Z.leb_spec (Z.of_nat (length (m_atoms m))) i); [lia|]. cbn [bind]. auto.
  - rewrite Z.geb_leb. destruct (Z.ltb_spec i 0).
    + destruct (Z.leb_spec (Z.of_nat (length (m_atoms m))) (i + 2 ^ 64)); [auto|].
      exfalso. change (2 ^ 64)%Z with 18446744073709551616%Z in *. change (2 ^ 63)%Z with 9223372036854775808%Z in *. lia.
    + destruct (Z.leb_spec (Z.of_nat (length (m_atoms m))) i); [auto|lia].
Qed.
Print Assumptions C30_number_density_i.

Theorem C30_number_density (m : Material R) : m_rho m <> 0 -> m_M m <> 0 ->
  number_density m = Avogadro * m_rho m / m_M m /\
  number_density_cm2 m = number_density m * thickness_cm m.
Proof.
  intros H1 H2. unfold number_density, number_density_cm2, thickness_cm. numR. split; [reflexivity|].
  field. split; assumption.
Qed.
Print Assumptions C30_number_density.

Example C30_case :
  let m := Material_elem (12 : R) 6 2 4 0 in
  m_rho m <> 0 /\ m_M m <> 0 /\ thickness_cm m = 2 /\ ncomponents m = 1%Z /\
  number_density_i m (-1) = Ok 0.
Proof.
  cbv zeta. unfold Material_elem, add_element. rewrite lit0R, lit1R. numR.
  destruct (Rltb_spec 0 12); [|lra]. cbn [m_rho m_M m_th m_atoms app]. unfold thickness_cm. cbn [m_th m_rho]. numR.
  split; [lra|]. split; [lra|]. split; [lra|]. split; [reflexivity|].
  unfold number_density_i, index_ge_size. cbn. f_equal. lra.
Qed.

(** ** C31 *)
Lemma add_fold {F} (b : Layers F) : forall a : Layers F, fold_left layers_add b a = a ++ b.
Proof.
  induction b as [|x b IH]; intros a; cbn; [now rewrite app_nil_r|].
  rewrite IH. unfold layers_add. rewrite <- app_assoc. reflexivity.
Qed.

Theorem C31_plus {F} {N : Num F} (a b c : Layers F) (m : Material F) :
  layers_plus a b = a ++ b /\
  layers_plus (layers_plus a b) c = layers_plus a (layers_plus b c) /\
  layers_plus a [] = a /\ layers_plus [] a = a /\
  layers_plus_mat a m = a ++ [m] /\ layers_add a m = a ++ [m] /\
  layers_num (layers_plus a b) = (layers_num a + layers_num b)%Z.
Proof.
  assert (P : forall a b : Layers F, layers_plus a b = a ++ b).
  { intros. unfold layers_plus. now rewrite !add_fold. }
  rewrite !P. unfold layers_plus_mat, layers_num. rewrite add_fold. unfold layers_add. rewrite app_length, app_nil_r, app_assoc.
  repeat split. lia.
Qed.
Print Assumptions C31_plus.

Theorem C31_thickness (a b : Layers R) :
  layers_thickness a = Rsum (map m_th a) /\
  layers_thickness (layers_plus a b) = layers_thickness a + layers_thickness b /\
  layers_thickness_cm (layers_plus a b) = layers_thickness_cm a + layers_thickness_cm b.
Proof.
  assert (S : forall (f : Material R -> R) l s, fold_left (fun s m => s + f m) l s = s + Rsum (map f l)).
  { intros f. unfold Rsum. induction l as [|x l IH]; intros s; cbn; [ring|]. rewrite IH. ring. }
  assert (P : layers_plus a b = a ++ b) by apply (C31_plus a b [] (mkMat 0 0 0 0 [])).
  rewrite P. unfold layers_thickness, layers_thickness_cm. rewrite lit0R. numR. rewrite !S, !map_app, !Rsum_app.
  repeat split; ring.
Qed.
Print Assumptions C31_thickness.

(** add(const Layers&) on objects: the destination gets the source appended, every other object,
    the source included, keeps its value; whatever the capacities and the growth policy *)
Theorem C31_add_layers {A} (grow : nat -> nat) (h : heap A) dst src : dst <> src ->
  exists h', add_all grow h dst src = Ok h' /\
    v_elems (h' dst) = v_elems (h dst) ++ v_elems (h src) /\ (forall k, k <> dst -> h' k = h k).
Proof. apply add_all_other. Qed.
Print Assumptions C31_add_layers.

(** ... and with the object itself it is undefined as soon as the object is not empty *)
Theorem C31_add_self {A} (grow : nat -> nat) (h : heap A) v :
  add_all grow h v v = match v_elems (h v) with [] => Ok h | _ => UB IterInvalidated end.
Proof. apply add_all_self. Qed.
Print Assumptions C31_add_self.

(** the value-level operation used by the rest of the model is the one of the objects *)
Theorem C31_model {F} {N : Num F} grow (h : heap (Material F)) dst src h' :
  add_all grow h dst src = Ok h' ->
  exists objs', layers_add_obj (fun k => v_elems (h k)) dst src = Ok objs' /\
    forall k, objs' k = v_elems (h' k).
Proof.
  intros H. unfold layers_add_obj. destruct (Nat.eqb_spec dst src) as [->|NE].
  - rewrite C31_add_self in H. destruct (v_elems (h src)); [|discriminate].
    injection H as <-. eexists. split; [reflexivity|]. auto.
  - destruct (C31_add_layers grow h dst src NE) as (h2 & H2 & E & K). rewrite H in H2. injection H2 as <-.
    eexists. split; [reflexivity|]. intros k. cbn. destruct (Nat.eqb_spec k dst) as [->|NK].
    + rewrite E. unfold layers_append. now rewrite add_fold.
    + now rewrite K.
Qed.
Print Assumptions C31_model.

Example C31_case :
  let h := fun k : nat => mkVec [k; k] (if Nat.eqb k 0 then 2 else 8)%nat 0 0 in
  (exists h', add_all (fun n => 2 * n)%nat h 0 1 = Ok h' /\ v_elems (h' 0%nat) = [0; 0; 1; 1]%nat) /\
  add_all (fun n => 2 * n)%nat h 0 0 = UB IterInvalidated /\
  add_all (fun n => 2 * n)%nat h 1 1 = UB IterInvalidated.
Proof. cbv zeta. split; [eexists; split; reflexivity|]. split; reflexivity. Qed.
