(** * Property C39: mixture rules *)
From Coq Require Import ZArith Reals List Bool Lra Lia Permutation.
From Verif Require Import Num NumR Structures EnergyTable Spline Integrator Srim Calculations Storage
  CacheFresh PropMaterial PropSrim Cases.
Import ListNotations.
Local Open Scope R_scope.

(** two computations that agree whenever one of them succeeds *)
Definition same_value {A} (x y : outcome A) : Prop := forall v, x = Ok v <-> y = Ok v.

(** weight fraction of an entry: numbers below 1 are weight fractions, numbers from 1 on are
    numbers of atoms in a molecule of mass M *)
Definition share (M : R) (t : Target R) : R :=
  if Rlt_dec (tstn t) 1 then tstn t else tstn t * tA t / M.

(** the weighted sum of quantities, defined when all of them are *)
Fixpoint weighted_sum (l : list (R * outcome R)) : outcome R :=
  match l with
  | [] => Ok 0
  | (w, q) :: l' => x <- q ;; s <- weighted_sum l' ;; Ok (w * x + s)
  end.

(** the material made of the element of one entry, with the mean excitation energy of the mixture *)
Definition element_of (m : Material R) (t : Target R) : Material R :=
  Material_elem (tA t) (tZ t) (m_rho m) (m_th m) (m_I m).

Lemma sv_refl {A} (x : outcome A) : same_value x x.
Proof. intros v. tauto. Qed.
Lemma sv_eq {A} (x y : outcome A) : x = y -> same_value x y.
Proof. intros ->. apply sv_refl. Qed.
Lemma sv_sym {A} (x y : outcome A) : same_value x y -> same_value y x.
Proof. intros H v. specialize (H v). tauto. Qed.
Lemma sv_trans {A} (x y z : outcome A) : same_value x y -> same_value y z -> same_value x z.
Proof. intros H K v. specialize (H v). specialize (K v). tauto. Qed.
Lemma sv_bind {A B} (x y : outcome A) (f g : A -> outcome B) : same_value x y ->
  (forall a, same_value (f a) (g a)) -> same_value (bind x f) (bind y g).
Proof.
  intros H K v. destruct x as [a|u], y as [b|u']; cbn [bind].
  - assert (a = b) as -> by (destruct (H a) as [H1 _]; specialize (H1 eq_refl); congruence). apply K.
  - destruct (H a) as [H1 _]. specialize (H1 eq_refl). discriminate.
  - destruct (H b) as [_ H1]. specialize (H1 eq_refl). discriminate.
  - split; discriminate.
Qed.
(** evaluation order does not matter *)
Lemma sv_swap {A B C} (x : outcome A) (y : outcome B) (f : A -> B -> outcome C) :
  same_value (a <- x ;; b <- y ;; f a b) (b <- y ;; a <- x ;; f a b).
Proof. intros v. destruct x, y; cbn [bind]; try tauto; split; discriminate. Qed.

Lemma sum_perm l l' : Permutation l l' -> same_value (weighted_sum l) (weighted_sum l').
Proof.
  induction 1 as [|[w q] l l' _ IH|[w q] [w' q'] l|l1 l2 l3 _ IH1 _ IH2].
  - apply sv_refl.
  - cbn [weighted_sum]. apply sv_bind; [apply sv_refl|]. intros a. apply sv_bind; [exact IH|]. intros b. apply sv_refl.
  - cbn [weighted_sum]. intros v. destruct q', q, (weighted_sum l); cbn [bind]; try tauto; try (split; discriminate).
    split; intros H; rewrite <- H; f_equal; ring.
  - eapply sv_trans; eassumption.
Qed.

(** the loops of the code are such sums *)
Lemma fold_sum {X} (g : X -> outcome R) (w : X -> R) l : forall b,
  ofold (fun s t => d <- g t ;; Ok (s + w t * d)) l b =
  (s <- weighted_sum (map (fun t => (w t, g t)) l) ;; Ok (b + s)).
Proof.
  induction l as [|t l IH]; intros b; cbn [ofold map weighted_sum bind].
  - f_equal. ring.
  - destruct (g t) as [x|u]; cbn [bind]; [|reflexivity]. rewrite IH.
    destruct (weighted_sum _); cbn [bind]; [|reflexivity]. f_equal. ring.
Qed.

Lemma sum_lin {X} (g1 g2 : X -> outcome R) (w : X -> R) a b l :
  same_value (x <- weighted_sum (map (fun t => (w t, g1 t)) l) ;;
              y <- weighted_sum (map (fun t => (w t, g2 t)) l) ;; Ok (a * x + b * y))
             (weighted_sum (map (fun t => (w t, d1 <- g1 t ;; d2 <- g2 t ;; Ok (a * d1 + b * d2))) l)).
Proof.
  induction l as [|t l IH]; cbn [map weighted_sum bind].
  - intros v. split; intros H; rewrite <- H; f_equal; ring.
  - set (S1 := weighted_sum (map (fun t => (w t, g1 t)) l)) in *.
    set (S2 := weighted_sum (map (fun t => (w t, g2 t)) l)) in *.
    set (S3 := weighted_sum (map (fun t => (w t, d1 <- g1 t ;; d2 <- g2 t ;; Ok (a * d1 + b * d2))) l)) in *.
    clearbody S1 S2 S3.
    intros v. destruct (g1 t) as [d1|]; cbn [bind]; [|split; discriminate].
    destruct (g2 t) as [d2|]; cbn [bind].
    + destruct S1 as [s1|], S2 as [s2|], S3 as [s3|]; cbn [bind] in *;
        try (split; discriminate); try (specialize (IH s3); destruct IH as [_ IH]; specialize (IH eq_refl); discriminate).
      * destruct (IH s3) as [_ IH']. specialize (IH' eq_refl). injection IH' as <-.
        split; intros H; rewrite <- H; f_equal; ring.
      * destruct (IH (a * s1 + b * s2)) as [IH' _]. specialize (IH' eq_refl). discriminate.
    + destruct S1; cbn [bind]; split; discriminate.
Qed.

Lemma sum_ext {X} (w w' : X -> R) (g g' : X -> outcome R) l :
  (forall t, In t l -> w t = w' t /\ same_value (g t) (g' t)) ->
  same_value (weighted_sum (map (fun t => (w t, g t)) l)) (weighted_sum (map (fun t => (w' t, g' t)) l)).
Proof.
  induction l as [|t l IH]; intros H; cbn [map weighted_sum]; [apply sv_refl|].
  destruct (H t (or_introl eq_refl)) as [-> G]. apply sv_bind; [exact G|]. intros x.
  apply sv_bind; [apply IH; intros; apply H; now right|]. intros s. apply sv_refl.
Qed.
Lemma sum_ok {X} (w g : X -> R) l :
  weighted_sum (map (fun t => (w t, Ok (g t))) l) = Ok (fold_right (fun t s => w t * g t + s) 0 l).
Proof. induction l as [|t l IH]; cbn [map weighted_sum bind fold_right]; [reflexivity|]. rewrite IH. reflexivity. Qed.
Lemma sum_scale {X} (g : X -> outcome R) (w : X -> R) a l :
  same_value (x <- weighted_sum (map (fun t => (w t, g t)) l) ;; Ok (a * x))
             (weighted_sum (map (fun t => (w t, d <- g t ;; Ok (a * d))) l)).
Proof.
  eapply sv_trans; [|eapply sv_trans; [apply (sum_lin g (fun _ => Ok 0) w a 0 l)|]].
  - apply sv_bind; [apply sv_refl|]. intros x. rewrite (sum_ok w (fun _ => 0)). cbn [bind].
    apply sv_eq. f_equal. ring.
  - apply sum_ext. intros t _. split; [reflexivity|]. apply sv_bind; [apply sv_refl|]. intros d. cbn [bind].
    apply sv_eq. f_equal. ring.
Qed.

Lemma wfrac_share m t : wfrac m t = share (m_M m) t.
Proof.
  unfold wfrac, share. numR. destruct (Rltb_spec (tstn t) (Rlit 1.0)) as [L|L], (Rlt_dec (tstn t) 1) as [L'|L']; try reflexivity;
    exfalso; revert L; dec_norm; lra.
Qed.

(** what one entry contributes *)
Definition low_of (p : Projectile R) (c : Config R) (t : Target R) : outcome R :=
  z <- cast (fto_int (pZ p)) ;; d <- srim_dedx_e z (tZ t) (pT p) (c_low c =? srim_95)%Z ;;
  Ok (100 * (d / tA t) * Avogadro).
Definition electronic_of (p : Projectile R) (c : Config R) (I : R) (t : Target R) : outcome R :=
  if Rleb (pT p) 10 then low_of p c t
  else if Rltb 10 (pT p) && Rltb (pT p) 30
       then s <- low_of p c t ;; b <- bethek_dedx_e_t p t c I ;;
            Ok ((1 - (pT p - 10) / 20) * s + (pT p - 10) / 20 * b)
       else bethek_dedx_e_t p t c I.
Definition contribution (p : Projectile R) (c : Config R) (I : R) (t : Target R) : outcome R :=
  if Rleb (pT p) 0 then Ok 0
  else e <- electronic_of p c I t ;; Ok (dedx_n_t p t + e).

Lemma lit0_mix : Rlit 0.0 = 0. Proof. dec_norm. lra. Qed.
Lemma Rlit0 : Rlit 0 = 0. Proof. dec_norm. lra. Qed.
Lemma Rlit10 : Rlit 10 = 10. Proof. dec_norm. lra. Qed.
Lemma Rlit30 : Rlit 30 = 30. Proof. dec_norm. lra. Qed.

Lemma nuclear_sum p m : dedx_n p m = fold_right (fun t s => share (m_M m) t * dedx_n_t p t + s) 0 (m_atoms m).
Proof.
  unfold dedx_n.
  assert (G : forall l b, fold_left (fun s t => s + wfrac m t * dedx_n_t p t) l b =
                          b + fold_right (fun t s => share (m_M m) t * dedx_n_t p t + s) 0 l).
  { induction l as [|t l IH]; intros b; cbn [fold_left fold_right]; [ring|]. rewrite IH, wfrac_share. ring. }
  etransitivity; [apply G|]. numR. rewrite lit0_mix. ring.
Qed.
Lemma sezi_sum p m c : same_value (sezi_dedx_e p m c)
  (weighted_sum (map (fun t => (share (m_M m) t, low_of p c t)) (m_atoms m))).
Proof.
  unfold sezi_dedx_e. cbv zeta. numR.
  rewrite (ofold_ext _ (fun s t => d <- (z <- cast (fto_int (pZ p)) ;; d <- srim_dedx_e z (tZ t) (pT p) (c_low c =? srim_95)%Z ;;
        Ok (d / tA t)) ;; Ok (s + share (m_M m) t * d))).
  - rewrite fold_sum. rewrite lit0_mix.
    eapply sv_trans; [|eapply sv_trans; [apply (sum_scale (fun t => z <- cast (fto_int (pZ p)) ;; d <- srim_dedx_e z (tZ t) (pT p) (c_low c =? srim_95)%Z ;;
        Ok (d / tA t)) (share (m_M m)) (100 * Avogadro) (m_atoms m))|]].
    + match goal with |- same_value (bind (bind ?x _) _) _ => destruct x end; cbn [bind]; apply sv_eq; [|reflexivity].
      f_equal. replace (Rlit 100) with 100 by (dec_norm; lra). ring.
    + apply sum_ext. intros t _. split; [reflexivity|]. unfold low_of.
      destruct (cast _); cbn [bind]; [|apply sv_refl]. destruct (srim_dedx_e _ _ _ _); cbn [bind]; [|apply sv_refl].
      apply sv_eq. f_equal. ring.
  - intros s t _. destruct (cast _); cbn [bind]; [|reflexivity]. destruct (srim_dedx_e _ _ _ _); cbn [bind]; [|reflexivity].
    rewrite wfrac_share. f_equal. unfold Rdiv. ring.
Qed.
Lemma bethek_sum p m c : same_value (bethek_dedx_e p m c)
  (weighted_sum (map (fun t => (share (m_M m) t, bethek_dedx_e_t p t c (m_I m))) (m_atoms m))).
Proof.
  unfold bethek_dedx_e. numR.
  rewrite (ofold_ext _ (fun s t => d <- bethek_dedx_e_t p t c (m_I m) ;; Ok (s + share (m_M m) t * d))).
  - rewrite fold_sum. rewrite lit0_mix. destruct (weighted_sum _); cbn [bind]; apply sv_eq; [|reflexivity]. f_equal. ring.
  - intros s t _. destruct (bethek_dedx_e_t _ _ _ _); cbn [bind]; [|reflexivity]. now rewrite wfrac_share.
Qed.

Lemma dedx_sum p m c : same_value (dedx p m c)
  (weighted_sum (map (fun t => (share (m_M m) t, contribution p c (m_I m) t)) (m_atoms m))).
Proof.
  unfold dedx, contribution. numR. rewrite Rlit0, Rlit10, Rlit30.
  destruct (Rleb_spec (pT p) 0) as [L|L].
  - rewrite (sum_ok (share (m_M m)) (fun _ => 0)). apply sv_eq. f_equal. rewrite lit0_mix.
    generalize (m_atoms m). intros l. induction l as [|t l IH]; cbn [fold_right]; [reflexivity|]. rewrite <- IH. ring.
  - assert (E : same_value
      (if Rleb (pT p) 10 then sezi_dedx_e p m c
       else if Rltb 10 (pT p) && Rltb (pT p) 30
            then s <- sezi_dedx_e p m c ;; b <- bethek_dedx_e p m c ;;
                 Ok ((Rlit 1 - Rlit 0.05 * (pT p - Rlit 10.0)) * s + Rlit 0.05 * (pT p - Rlit 10.0) * b)
            else bethek_dedx_e p m c)
      (weighted_sum (map (fun t => (share (m_M m) t, electronic_of p c (m_I m) t)) (m_atoms m)))).
    { unfold electronic_of. destruct (Rleb (pT p) 10); [apply sezi_sum|]. destruct (_ && _)%bool; [|apply bethek_sum].
      eapply sv_trans; [|apply (sum_lin (low_of p c) (fun t => bethek_dedx_e_t p t c (m_I m)) (share (m_M m))
                                  (1 - (pT p - 10) / 20) ((pT p - 10) / 20))].
      apply sv_bind; [apply sezi_sum|]. intros x. apply sv_bind; [apply bethek_sum|]. intros y.
      apply sv_eq. f_equal. dec_norm. field. }
    eapply sv_trans; [apply sv_bind; [exact E|intros; apply sv_refl]|]. clear E.
    eapply sv_trans; [|eapply sv_trans; [apply (sum_lin (fun t => Ok (dedx_n_t p t)) (electronic_of p c (m_I m)) (share (m_M m)) 1 1)|]].
    + rewrite (sum_ok (share (m_M m)) (dedx_n_t p)). cbn [bind]. rewrite <- nuclear_sum.
      apply sv_bind; [apply sv_refl|]. intros x. apply sv_eq. f_equal. numR. ring.
    + apply sum_ext. intros t _. split; [reflexivity|]. cbn [bind]. apply sv_bind; [apply sv_refl|]. intros x.
      apply sv_eq. f_equal. ring.
Qed.
Lemma domega_sum p m c : same_value (domega2dx p m c)
  (weighted_sum (map (fun t => (share (m_M m) t, dedx_variance p t c)) (m_atoms m))).
Proof.
  unfold domega2dx. numR.
  rewrite (ofold_ext _ (fun s t => d <- dedx_variance p t c ;; Ok (s + share (m_M m) t * d))).
  - rewrite fold_sum. rewrite Rlit0. destruct (weighted_sum _); cbn [bind]; apply sv_eq; [|reflexivity]. f_equal. ring.
  - intros s t _. destruct (dedx_variance _ _ _); cbn [bind]; [|reflexivity]. now rewrite wfrac_share.
Qed.

Lemma elem_material m t : 0 < tA t -> element_of m t = mkMat (m_rho m) (m_th m) (tA t) (m_I m) [mkTarget (tA t) (tZ t) 1].
Proof.
  intros H. unfold element_of, Material_elem, add_element. cbn [m_rho m_th m_M m_I m_atoms app]. numR.
  destruct (Rltb_spec (Rlit 0) (tA t)) as [_|N]; [|exfalso; apply N; rewrite Rlit0; exact H].
  replace (Rlit 1.0) with 1 by (dec_norm; lra). f_equal. rewrite Rlit0. ring.
Qed.
Lemma elem_share (m : Material R) t : 0 < tA t -> share (tA t) (mkTarget (tA t) (tZ t) 1) = 1.
Proof. intros H. unfold share. cbn [tstn tA]. destruct (Rlt_dec 1 1); [lra|]. field. lra. Qed.
Lemma sum_single w q : w = 1 -> same_value (weighted_sum [(w, q)]) q.
Proof.
  intros ->. cbn [weighted_sum]. intros v. destruct q; cbn [bind]; [|split; discriminate].
  split; intros H; rewrite <- H; f_equal; ring.
Qed.
Lemma z_effective_stn p a z s s' c : z_effective (F:=R) p (mkTarget a z s) c = z_effective p (mkTarget a z s') c.
Proof. reflexivity. Qed.
Lemma contribution_stn p c I a z s s' : contribution p c I (mkTarget a z s) = contribution p c I (mkTarget a z s').
Proof. reflexivity. Qed.
Lemma target_eta (t : Target R) : t = mkTarget (tA t) (tZ t) (tstn t).
Proof. now destruct t. Qed.

(** ** C39: Bragg additivity *)
Theorem C39_stopping p m c : (forall t, In t (m_atoms m) -> 0 < tA t) ->
  same_value (dedx p m c)
             (weighted_sum (map (fun t => (share (m_M m) t, dedx p (element_of m t) c)) (m_atoms m))).
Proof.
  intros A. eapply sv_trans; [apply dedx_sum|]. apply sum_ext. intros t Ht. split; [reflexivity|].
  apply sv_sym. eapply sv_trans; [apply dedx_sum|]. rewrite (elem_material m t (A t Ht)). cbn [m_M m_I m_atoms map].
  eapply sv_trans; [apply sum_single, (elem_share m t (A t Ht))|].
  apply sv_eq. destruct t; reflexivity.
Qed.
Print Assumptions C39_stopping.
Theorem C39_straggling p m c : (forall t, In t (m_atoms m) -> 0 < tA t) ->
  same_value (domega2dx p m c)
             (weighted_sum (map (fun t => (share (m_M m) t, domega2dx p (element_of m t) c)) (m_atoms m))).
Proof.
  intros A. eapply sv_trans; [apply domega_sum|]. apply sum_ext. intros t Ht. split; [reflexivity|].
  apply sv_sym. eapply sv_trans; [apply domega_sum|]. rewrite (elem_material m t (A t Ht)). cbn [m_M m_I m_atoms map].
  eapply sv_trans; [apply sum_single, (elem_share m t (A t Ht))|].
  apply sv_eq. destruct t; reflexivity.
Qed.
Print Assumptions C39_straggling.

(** ** The order of the constituents *)
Definition reordered (m m' : Material R) : Prop :=
  m_M m = m_M m' /\ m_I m = m_I m' /\ Permutation (m_atoms m) (m_atoms m').

(** a reordered list of constituents gives a reordered material *)
Theorem C39_reordered_list (l l' : list (R * Z * R)) rho ip mass :
  Permutation l l' -> reordered (Material_list l rho ip mass) (Material_list l' rho ip mass).
Proof.
  intros P. unfold reordered, Material_list.
  rewrite !add_elements. cbn [m_rho m_th m_M m_I m_atoms app].
  assert (PT : Permutation (targets l) (targets l')) by (apply Permutation_map; exact P).
  assert (RS : forall f : entry -> R, Rsum (map f l) = Rsum (map f l')).
  { intros f. pose proof (Permutation_map f P) as Q. induction Q; cbn [Rsum fold_right] in *; unfold Rsum in *; cbn [fold_right]; lra. }
  assert (D : forall x : R, x = x /\ ip = ip /\ Permutation (targets l) (targets l')) by (intros x; split; [reflexivity|split; [reflexivity|exact PT]]).
  destruct (negb _); cbn [m_M m_I m_atoms]; [exact (D mass)|].
  unfold material_calculate. cbn [m_rho m_th m_M m_I m_atoms].
  assert (FB : forallb (fun t => fltb (tstn t) (lit 1.0)) (targets l) = forallb (fun t => fltb (tstn t) (lit 1.0)) (targets l')).
  { clear - PT. induction PT; cbn [forallb]; [reflexivity|now rewrite IHPT| |congruence].
    rewrite !andb_assoc. f_equal. apply andb_comm. }
  rewrite FB. destruct (forallb (fun t => fltb (tstn t) (lit 1.0)) (targets l')); cbn [m_M m_I m_atoms]; [|rewrite (RS (fun x : entry => stn_of x * mass_of x)); apply D].
  rewrite !sum_fold, (RS (fun x : entry => stn_of x / mass_of x)). apply D.
Qed.
Print Assumptions C39_reordered_list.

Theorem C39_order p m m' c : reordered m m' ->
  same_value (dedx p m c) (dedx p m' c) /\ same_value (domega2dx p m c) (domega2dx p m' c).
Proof.
  intros (E1 & E2 & P). split.
  - eapply sv_trans; [apply dedx_sum|]. eapply sv_trans; [|apply sv_sym, dedx_sum]. rewrite E1, E2. apply sum_perm, Permutation_map, P.
  - eapply sv_trans; [apply domega_sum|]. eapply sv_trans; [|apply sv_sym, domega_sum]. rewrite E1. apply sum_perm, Permutation_map, P.
Qed.
Print Assumptions C39_order.

Lemma radiation_sum m : same_value (radiation_length (F:=R) m)
  (s <- weighted_sum (map (fun t => (share (m_M m) t, r <- radiation_length_z (tZ t) (tA t) ;; Ok (/ r))) (m_atoms m)) ;; Ok (1 / s)).
Proof.
  unfold radiation_length. numR.
  rewrite (ofold_ext _ (fun s t => d <- (r <- radiation_length_z (tZ t) (tA t) ;; Ok (/ r)) ;; Ok (s + share (m_M m) t * d))).
  - rewrite fold_sum. rewrite Rlit0. match goal with |- same_value (bind (bind ?x _) _) _ => destruct x end; cbn [bind]; apply sv_eq; [|reflexivity].
    f_equal. replace (Rlit 1) with 1 by (dec_norm; lra). f_equal. ring.
  - intros s t _. destruct (radiation_length_z _ _); cbn [bind]; [|reflexivity]. now rewrite wfrac_share.
Qed.
Lemma da2dx_order p m m' c : reordered m m' -> same_value (da2dx p m c) (da2dx p m' c).
Proof.
  intros (E1 & E2 & P). unfold da2dx. apply sv_bind; [|intros; apply sv_refl].
  unfold angular_scattering_power. destruct (fleb _ _); [apply sv_refl|]. cbv zeta. apply sv_bind; [|intros; apply sv_refl].
  eapply sv_trans; [apply radiation_sum|]. eapply sv_trans; [|apply sv_sym, radiation_sum].
  apply sv_bind; [|intros; apply sv_refl]. rewrite E1. apply sum_perm, Permutation_map, P.
Qed.

Lemma gl_pairs_sv nodes (f g : R -> outcome R) p q : (forall x, same_value (f x) (g x)) ->
  forall r, same_value (gl_pairs nodes f p q r) (gl_pairs nodes g p q r).
Proof.
  intros H. induction nodes as [|[x w] nodes IH]; intros r; cbn [gl_pairs]; [apply sv_refl|].
  apply sv_bind; [apply H|]. intros a. apply sv_bind; [apply H|]. intros b. apply IH.
Qed.
Lemma table_sv A (f g : R -> outcome R) l : (forall x, same_value (f x) (g x)) ->
  same_value (table (scaled_integral A f) l) (table (scaled_integral A g) l).
Proof.
  intros H.
  assert (S : forall a b, same_value (scaled_integral A f a b) (scaled_integral A g a b)).
  { intros a b. unfold scaled_integral. apply sv_bind; [|intros; apply sv_refl]. unfold integrate, gl_integrate.
    cbn [Nat.odd Nat.even negb]. apply sv_bind; [|intros; apply sv_refl]. now apply gl_pairs_sv. }
  unfold table. destruct l as [|g0 rest]; [apply sv_refl|]. apply sv_bind; [|intros; apply sv_refl].
  generalize (lit 0.0 : R). revert g0. induction rest as [|h rest IH]; intros lo pr; cbn [accumulate]; [apply sv_refl|].
  apply sv_bind; [apply S|]. intros r. apply sv_bind; [apply IH|]. intros l. apply sv_refl.
Qed.

(** hence also all tables: range, range straggling and angular variance *)
Theorem C39_order_tables p m m' c : reordered m m' ->
  same_value (range_table p m c) (range_table p m' c) /\
  same_value (straggling_table p m c) (straggling_table p m' c) /\
  same_value (angular_table p m c) (angular_table p m' c).
Proof.
  intros P. split; [|split]; apply table_sv; intros x.
  - unfold fdedx. apply sv_bind; [now apply C39_order|]. intros; apply sv_refl.
  - unfold fomega. apply sv_bind; [now apply C39_order|]. intros o. apply sv_bind; [now apply C39_order|]. intros; apply sv_refl.
  - unfold ftheta, da2de. apply sv_bind; [now apply da2dx_order|]. intros o. apply sv_bind; [now apply C39_order|]. intros; apply sv_refl.
Qed.
Print Assumptions C39_order_tables.

(** ** Splitting a constituent *)
Lemma sum_split w1 w2 w q l1 l2 : w = w1 + w2 ->
  same_value (weighted_sum (l1 ++ (w, q) :: l2)) (weighted_sum (l1 ++ (w1, q) :: (w2, q) :: l2)).
Proof.
  intros ->. induction l1 as [|[w' q'] l1 IH]; cbn [app weighted_sum].
  - intros v. destruct q as [x|], (weighted_sum l2) as [s|]; cbn [bind]; try (split; discriminate).
    split; intros H; rewrite <- H; f_equal; ring.
  - apply sv_bind; [apply sv_refl|]. intros x. apply sv_bind; [exact IH|]. intros; apply sv_refl.
Qed.

Definition with_atoms (m : Material R) (l : list (Target R)) : Material R :=
  mkMat (m_rho m) (m_th m) (m_M m) (m_I m) l.

(** both parts numbers of atoms, or both and their sum weight fractions *)
Theorem C39_split p m c l1 a z s1 s2 l2 : (1 <= s1 /\ 1 <= s2) \/ (s1 < 1 /\ s2 < 1 /\ s1 + s2 < 1) ->
  let one := with_atoms m (l1 ++ mkTarget a z (s1 + s2) :: l2) in
  let two := with_atoms m (l1 ++ mkTarget a z s1 :: mkTarget a z s2 :: l2) in
  same_value (dedx p one c) (dedx p two c) /\ same_value (domega2dx p one c) (domega2dx p two c).
Proof.
  intros S one two.
  assert (SH : share (m_M m) (mkTarget a z (s1 + s2)) = share (m_M m) (mkTarget a z s1) + share (m_M m) (mkTarget a z s2)).
  { unfold share. cbn [tstn tA]. destruct (Rlt_dec (s1 + s2) 1), (Rlt_dec s1 1), (Rlt_dec s2 1); lra. }
  split.
  - eapply sv_trans; [apply dedx_sum|]. eapply sv_trans; [|apply sv_sym, dedx_sum].
    unfold one, two, with_atoms. cbn [m_M m_I m_atoms]. rewrite !map_app. cbn [map].
    rewrite (contribution_stn p c (m_I m) a z s1 (s1 + s2)), (contribution_stn p c (m_I m) a z s2 (s1 + s2)).
    apply sum_split, SH.
  - eapply sv_trans; [apply domega_sum|]. eapply sv_trans; [|apply sv_sym, domega_sum].
    unfold one, two, with_atoms. cbn [m_M m_I m_atoms]. rewrite !map_app. cbn [map].
    change (dedx_variance p (mkTarget a z s1) c) with (dedx_variance p (mkTarget a z (s1 + s2)) c).
    change (dedx_variance p (mkTarget a z s2) c) with (dedx_variance p (mkTarget a z (s1 + s2)) c).
    apply sum_split, SH.
Qed.
Print Assumptions C39_split.

(** the constructor gives both spellings the same molar mass when they are numbers of atoms *)
Theorem C39_split_list p c l1 a z s1 s2 l2 rho ip : 1 <= s1 -> 1 <= s2 ->
  let one := Material_list (l1 ++ (a, z, s1 + s2) :: l2) rho ip 0 in
  let two := Material_list (l1 ++ (a, z, s1) :: (a, z, s2) :: l2) rho ip 0 in
  m_M one = m_M two /\
  same_value (dedx p one c) (dedx p two c) /\ same_value (domega2dx p one c) (domega2dx p two c).
Proof.
  intros H1 H2 one two.
  assert (M : forall l, (exists x, In x l /\ 1 <= stn_of x) ->
    Material_list l rho ip 0 = mkMat rho 0 (Rsum (map (fun x => stn_of x * mass_of x) l)) ip (targets l)).
  { intros l (x & I & G). rewrite list_ctor.
    destruct (forallb (fun x => Rltb (stn_of x) 1) l) eqn:FB; [|reflexivity].
    rewrite forallb_forall in FB. specialize (FB x I). revert FB. destruct (Rltb_spec (stn_of x) 1); [lra|discriminate]. }
  assert (E1 : one = mkMat rho 0 (Rsum (map (fun x => stn_of x * mass_of x) (l1 ++ (a, z, s1 + s2) :: l2))) ip
                 (targets (l1 ++ (a, z, s1 + s2) :: l2))).
  { apply M. exists (a, z, s1 + s2). split; [apply in_elt|]. cbn. lra. }
  assert (E2 : two = mkMat rho 0 (Rsum (map (fun x => stn_of x * mass_of x) (l1 ++ (a, z, s1) :: (a, z, s2) :: l2))) ip
                 (targets (l1 ++ (a, z, s1) :: (a, z, s2) :: l2))).
  { apply M. exists (a, z, s1). split; [apply in_elt|]. cbn. lra. }
  assert (RS : Rsum (map (fun x => stn_of x * mass_of x) (l1 ++ (a, z, s1 + s2) :: l2)) =
               Rsum (map (fun x => stn_of x * mass_of x) (l1 ++ (a, z, s1) :: (a, z, s2) :: l2))).
  { rewrite !map_app, !Rsum_app. cbn [map]. unfold Rsum. cbn [fold_right]. unfold stn_of, mass_of. cbn [snd fst]. ring. }
  split; [rewrite E1, E2; exact RS|]. rewrite E1, E2, <- RS. clear E1 E2 M.
  set (MM := Rsum _). clearbody MM.
  assert (T1 : targets (l1 ++ (a, z, s1 + s2) :: l2) = targets l1 ++ mkTarget (mass_of (a, z, 1)) z (s1 + s2) :: targets l2).
  { unfold targets. rewrite map_app. reflexivity. }
  assert (T2 : targets (l1 ++ (a, z, s1) :: (a, z, s2) :: l2) =
    targets l1 ++ mkTarget (mass_of (a, z, 1)) z s1 :: mkTarget (mass_of (a, z, 1)) z s2 :: targets l2).
  { unfold targets. rewrite map_app. reflexivity. }
  rewrite T1, T2.
  pose proof (C39_split p (mkMat rho 0 MM ip []) c (targets l1) (mass_of (a, z, 1)) z s1 s2 (targets l2) (or_introl (conj H1 H2))) as Q.
  unfold with_atoms in Q. cbn [m_rho m_th m_M m_I m_atoms] in Q. exact Q.
Qed.
Print Assumptions C39_split_list.

(** one number of atoms written as two numbers below 1, which are taken as weight fractions:
    the stopping power changes *)
Theorem C39_split_mixed p c m l1 a z s1 s2 l2 : s1 < 1 -> s2 < 1 -> 1 <= s1 + s2 ->
  forall v d, dedx p (with_atoms m (l1 ++ mkTarget a z (s1 + s2) :: l2)) c = Ok v ->
  0 < a -> dedx p (element_of m (mkTarget a z 1)) c = Ok d ->
  dedx p (with_atoms m (l1 ++ mkTarget a z s1 :: mkTarget a z s2 :: l2)) c = Ok (v + (s1 + s2) * (1 - a / m_M m) * d).
Proof.
  intros H1 H2 H v d V A D.
  assert (K : contribution p c (m_I m) (mkTarget a z 1) = Ok d).
  { pose proof (dedx_sum p (element_of m (mkTarget a z 1)) c) as X.
    rewrite (elem_material m (mkTarget a z 1) A) in *. cbn [m_M m_I m_atoms map tA tZ] in X.
    pose proof (sv_trans _ _ _ X (sum_single _ _ (elem_share m (mkTarget a z 1) A))) as Y. now apply Y. }
  apply dedx_sum in V. apply dedx_sum. unfold with_atoms in *. cbn [m_M m_I m_atoms] in *.
  rewrite map_app in *. cbn [map] in *.
  rewrite (contribution_stn p c (m_I m) a z s1 1), (contribution_stn p c (m_I m) a z s2 1), K.
  rewrite (contribution_stn p c (m_I m) a z (s1 + s2) 1), K in V.
  unfold share in V at 2. unfold share at 2 3. cbn [tstn tA] in *.
  destruct (Rlt_dec (s1 + s2) 1); [lra|]. destruct (Rlt_dec s1 1); [|lra]. destruct (Rlt_dec s2 1); [|lra].
  revert v V. generalize (map (fun t => (share (m_M m) t, contribution p c (m_I m) t)) l1).
  induction l as [|[w q] l IH]; intros v V; cbn [app weighted_sum] in *.
  - cbn [bind] in *. destruct (weighted_sum _) as [s|]; cbn [bind] in *; [|discriminate].
    injection V as <-. f_equal. unfold Rdiv. ring.
  - destruct q as [x|]; cbn [bind] in *; [|discriminate].
    match type of V with (bind ?y _ = _) => destruct y as [s|]; cbn [bind] in *; [|discriminate] end.
    injection V as <-. rewrite (IH s eq_refl). cbn [bind]. f_equal. ring.
Qed.
Print Assumptions C39_split_mixed.

(** two hydrogen atoms in water: 2 = 1 + 1 is harmless; one oxygen atom as 1/2 + 1/2 is not *)
Theorem C39_split_mixed_refuted : exists m l1 a z s1 s2 l2 p c v v', s1 + s2 = 1 /\
  dedx p (with_atoms m (l1 ++ mkTarget a z 1 :: l2)) c = Ok v /\
  dedx p (with_atoms m (l1 ++ mkTarget a z s1 :: mkTarget a z s2 :: l2)) c = Ok v' /\ v < v'.
Proof.
  exists (water 1), [mkTarget 1 1 2], 16, 8%Z, (1 / 2), (1 / 2), [], (carbon 5), conf.
  destruct (C42_dedx (carbon 5) (water 1) conf) as (v & V & _); try (cbn; lra).
  { unfold ion, carbon. cbn. lra. }
  { unfold solid, water. cbn. split; [discriminate|]. split; [lra|]. repeat constructor; cbn; try lia; lra. }
  destruct (C42_dedx (carbon 5) (element_of (water 1) (mkTarget 16 8 1)) conf) as (d & D & P); try (cbn; lra).
  { unfold ion, carbon. cbn. lra. }
  { rewrite elem_material by (cbn; lra). unfold solid, water. cbn. split; [discriminate|]. split; [lra|]. repeat constructor; cbn; try lia; lra. }
  exists v, (v + (1 / 2 + 1 / 2) * (1 - 16 / 18) * d). split; [lra|]. split; [exact V|]. split; [|lra].
  apply (C39_split_mixed (carbon 5) conf (water 1) [mkTarget 1 1 2] 16 8 (1 / 2) (1 / 2) []); try lra; try exact D.
  replace (1 / 2 + 1 / 2) with 1 by lra. exact V.
Qed.
Print Assumptions C39_split_mixed_refuted.

(** hydrogen of water written as one entry or as two; constituents in either order *)
Example C39_case : exists v, dedx (carbon 5) (water 1) conf = Ok v /\
  dedx (carbon 5) (with_atoms (water 1) [mkTarget 16 8 1; mkTarget 1 1 2]) conf = Ok v /\
  dedx (carbon 5) (with_atoms (water 1) [mkTarget 1 1 1; mkTarget 1 1 1; mkTarget 16 8 1]) conf = Ok v.
Proof.
  destruct (C42_dedx (carbon 5) (water 1) conf) as (v & V & _); try (cbn; lra).
  { unfold ion, carbon. cbn. lra. }
  { unfold solid, water. cbn. split; [discriminate|]. split; [lra|]. repeat constructor; cbn; try lia; lra. }
  exists v. split; [exact V|]. split.
  - apply (C39_order (carbon 5) (with_atoms (water 1) [mkTarget 16 8 1; mkTarget 1 1 2]) (water 1)); [|exact V].
    split; [reflexivity|]. split; [reflexivity|]. cbn [m_atoms with_atoms water]. apply perm_swap.
  - pose proof (C39_split (carbon 5) (water 1) conf [] 1 1 1 1 [mkTarget 16 8 1] (or_introl (conj (Rle_refl 1) (Rle_refl 1)))) as [Q _].
    apply Q. cbn [app]. replace (1 + 1) with 2 by lra. exact V.
Qed.
