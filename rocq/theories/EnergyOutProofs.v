(** * Support for C08-C11: the Newton solver, vector calls *)
From Coq Require Import ZArith Reals List Bool Lra Lia.
From Verif Require Import Num NumR Structures EnergyTable Spline Integrator Calculations NucData
  Reactions Storage Catima CacheProofs CacheFresh.
Import ListNotations.

(** ** Extensional count of evaluations, any arithmetic *)
Section Count.
  Context {F : Type} {N : Num F}.

  (** [f] and [g] give the same outcome at the arguments in l *)
  Definition agree_on (l : list F) (f g : F -> outcome F) : Prop := forall x, In x l -> f x = g x.

  Lemma agree_cons x l (f g : F -> outcome F) : agree_on (x :: l) f g -> f x = g x /\ agree_on l f g.
  Proof. intros H. split; [apply H; now left|intros y Hy; apply H; now right]. Qed.

  Lemma newton_support (rng drv : F -> outcome F) r th : forall k e d,
    exists lr ld, (length lr <= S k)%nat /\ (length ld <= S k)%nat /\
      forall rng' drv', agree_on lr rng rng' -> agree_on ld drv drv' ->
        newton rng' drv' r th k e d = newton rng drv r th k e d.
  Proof.
    induction k as [|k IH]; intros e d.
    - destruct (rng e) as [re|u] eqn:E.
      + set (e' := fsub e (fmul (fneg (fsub (fsub r re) th)) d)).
        exists [e], [e']. simpl. repeat split; try lia. intros rng' drv' H1 H2.
        apply agree_cons in H1. destruct H1 as [H1 _]. apply agree_cons in H2. destruct H2 as [H2 _].
        rewrite <- H1, E. cbn [bind]. fold e'. rewrite H2. reflexivity.
      + exists [e], []. simpl. repeat split; try lia. intros rng' drv' H1 H2.
        apply agree_cons in H1. destruct H1 as [H1 _]. rewrite <- H1, E. reflexivity.
    - destruct (rng e) as [re|u] eqn:E.
      + set (e' := fsub e (fmul (fneg (fsub (fsub r re) th)) d)).
        destruct (drv e') as [d'|u] eqn:D.
        * destruct (IH e' (fdiv (lit 1.0) d')) as (lr & ld & L1 & L2 & H).
          exists (e :: lr), (e' :: ld). simpl length. repeat split; try lia.
          intros rng' drv' H1 H2. apply agree_cons in H1. destruct H1 as [H1 H1'].
          apply agree_cons in H2. destruct H2 as [H2 H2'].
          cbn [newton]. rewrite <- H1, E. cbn [bind]. fold e'. rewrite <- H2, D. cbn [bind].
          rewrite (H rng' drv' H1' H2'). reflexivity.
        * exists [e], [e']. simpl length. repeat split; try lia. intros rng' drv' H1 H2.
          apply agree_cons in H1. destruct H1 as [H1 _]. apply agree_cons in H2. destruct H2 as [H2 _].
          cbn [newton]. rewrite <- H1, E. cbn [bind]. fold e'. rewrite <- H2, D. reflexivity.
      + exists [e], []. simpl length. repeat split; try lia. intros rng' drv' H1 H2.
        apply agree_cons in H1. destruct H1 as [H1 _]. cbn [newton]. rewrite <- H1, E. reflexivity.
  Qed.

  Lemma energy_out_support (rng drv : F -> outcome F) T th :
    exists lr ld, (length lr <= 102)%nat /\ (length ld <= 102)%nat /\
      forall rng' drv', agree_on lr rng rng' -> agree_on ld drv drv' ->
        energy_out_fn rng' drv' T th = energy_out_fn rng drv T th.
  Proof.
    destruct (rng T) as [r|u] eqn:E1.
    - destruct (drv T) as [d|u] eqn:E2.
      + destruct (newton_support rng drv r th 100 (fsub T (fmul th (fdiv (lit 1.0) d))) (fdiv (lit 1.0) d))
          as (lr & ld & L1 & L2 & H).
        exists (T :: lr), (T :: ld). cbn [length]. split; [lia|]. split; [lia|].
        intros rng' drv' H1 H2. apply agree_cons in H1. destruct H1 as [H1 H1'].
        apply agree_cons in H2. destruct H2 as [H2 H2']. unfold energy_out_fn.
        rewrite <- H1, E1. cbn [bind]. rewrite <- H2, E2. cbn [bind]. cbv zeta.
        rewrite (H rng' drv' H1' H2'). reflexivity.
      + exists [T], [T]. cbn [length]. split; [lia|]. split; [lia|]. intros rng' drv' H1 H2.
        apply agree_cons in H1. destruct H1 as [H1 _]. apply agree_cons in H2. destruct H2 as [H2 _].
        unfold energy_out_fn. rewrite <- H1, E1. cbn [bind]. rewrite <- H2, E2. reflexivity.
    - exists [T], []. cbn [length]. split; [lia|]. split; [lia|]. intros rng' drv' H1 _.
      apply agree_cons in H1. destruct H1 as [H1 _]. unfold energy_out_fn. rewrite <- H1, E1. reflexivity.
  Qed.
End Count.

(** ** Exact arithmetic *)
Section Newton.
  Local Open Scope R_scope.
  Notation tol := (1 / 100000).
  Notation emin := (1 / 1000).

  Lemma Ezero_R : Ezero = emin :> R. Proof. unfold Ezero. numR. dec_norm. reflexivity. Qed.
  Lemma Eout_R : Eout_th_epsilon = tol :> R.
  Proof. unfold Eout_th_epsilon. numR. dec_norm. lra. Qed.

  Lemma newton_class (rng drv : R -> outcome R) r th : forall k e d x,
    newton rng drv r th k e d = Ok x ->
    x = 0 \/ x = -1 \/ exists rx, rng x = Ok rx /\ Rabs (r - rx - th) < tol.
  Proof.
    assert (Z0 : (lit 0.0 : R) = 0) by (numR; dec_norm; lra).
    assert (Zm : (lit (-1) : R) = -1) by (numR; dec_norm; lra).
    assert (S0 : forall k e d x,
      (re <- rng e ;;
        let r0 := fsub (fsub r re) th in
        if fltb (fabs r0) Eout_th_epsilon then Ok e
        else let step := fmul (fneg r0) d in
             let e0 := fsub e step in
             if fltb e0 Ezero then Ok (lit 0.0)
             else d0 <- drv e0 ;;
                  match k with
                  | O => Ok (lit (-1))
                  | S k' => newton rng drv r th k' e0 (fdiv (lit 1.0) d0)
                  end) = Ok x ->
      x = 0 \/ (exists rx, rng x = Ok rx /\ Rabs (r - rx - th) < tol) \/
      match k with O => x = -1 | S k' => exists e' d', newton rng drv r th k' e' d' = Ok x end).
    { intros k e d x H. apply bind_ok in H. destruct H as (re & E & H). cbv zeta in H. numR.
      destruct (Rltb_spec (Rabs (r - re - th)) Eout_th_epsilon) as [L|L].
      - inversion H; subst. right. left. exists re. split; [assumption|]. now rewrite <- Eout_R.
      - destruct (Rltb _ Ezero).
        + inversion H; subst. left. exact Z0.
        + apply bind_ok in H. destruct H as (d0 & D & H). right. right. destruct k.
          * inversion H; subst. exact Zm.
          * eauto. }
    induction k as [|k IH]; intros e d x H.
    - apply (S0 0%nat) in H. intuition.
    - apply (S0 (S k)) in H. destruct H as [H|[H|(e' & d' & H)]]; auto. eapply IH; eauto.
  Qed.

  Lemma energy_out_class (rng drv : R -> outcome R) T th x :
    energy_out_fn rng drv T th = Ok x ->
    exists rT, rng T = Ok rT /\
      ((rT <= th /\ x = 0) \/
       (th < rT /\ (x = 0 \/ x = -1 \/ exists rx, rng x = Ok rx /\ Rabs (rT - rx - th) < tol))).
  Proof.
    unfold energy_out_fn. intros H. apply bind_ok in H. destruct H as (rT & E & H).
    apply bind_ok in H. destruct H as (d & D & H). cbv zeta in H. exists rT. split; auto. numR.
    destruct (Rleb_spec rT th) as [L|L].
    - left. split; auto. inversion H. dec_norm. lra.
    - right. split; [lra|]. eapply newton_class; eauto.
  Qed.

  (** *** the iterates, for total functions *)
  Variables rng drv : R -> R.
  Variables T th : R.
  Definition residual (e : R) : R := rng T - rng e - th.
  (** textbook Newton for [residual e = 0], started by one linear step from T; the first correction
      still uses the slope at T *)
  Fixpoint iterate (n : nat) : R :=
    match n with
    | O => T - th / drv T
    | S m => iterate m + residual (iterate m) / drv (match m with O => T | _ => iterate m end)
    end.
  Notation slope_at n := (match n%nat with O => T | _ => iterate n end).

  Lemma iterate_S n : iterate (S n) = iterate n + residual (iterate n) / drv (slope_at n).
  Proof. reflexivity. Qed.

  Let f := fun x => Ok (rng x).
  Let g := fun x => Ok (drv x).

  Lemma newton_step k n :
    newton f g (rng T) th k (iterate n) (1 / drv (slope_at n)) =
    if Rltb (Rabs (residual (iterate n))) tol then Ok (iterate n)
    else if Rltb (iterate (S n)) emin then Ok 0
    else match k with
         | O => Ok (-1)
         | S k' => newton f g (rng T) th k' (iterate (S n)) (1 / drv (iterate (S n)))
         end.
  Proof.
    assert (Z0 : (lit 0.0 : R) = 0) by (numR; dec_norm; lra).
    assert (Z1 : (lit 1.0 : R) = 1) by (numR; dec_norm; lra).
    assert (Zm : (lit (-1) : R) = -1) by (numR; dec_norm; lra).
    rewrite iterate_S. unfold residual.
    set (s := slope_at n). set (e := iterate n).
    destruct k; cbn [newton]; unfold f at 1, g at 1; cbn [bind]; cbv zeta;
      rewrite Eout_R, Ezero_R, Z0, ?Z1, ?Zm; numR;
      replace (e - - (rng T - rng e - th) * (1 / drv s)) with (e + (rng T - rng e - th) / drv s)
        by (unfold Rdiv; ring); reflexivity.
  Qed.

  Lemma newton_iterates : forall k n,
    (exists m, (m <= k)%nat /\
      (forall j, (j < m)%nat -> tol <= Rabs (residual (iterate (n + j))) /\ emin <= iterate (S (n + j))) /\
      ((Rabs (residual (iterate (n + m))) < tol /\
        newton f g (rng T) th k (iterate n) (1 / drv (slope_at n)) = Ok (iterate (n + m))) \/
       (tol <= Rabs (residual (iterate (n + m))) /\ iterate (S (n + m)) < emin /\
        newton f g (rng T) th k (iterate n) (1 / drv (slope_at n)) = Ok 0))) \/
    ((forall j, (j <= k)%nat -> tol <= Rabs (residual (iterate (n + j))) /\ emin <= iterate (S (n + j))) /\
      newton f g (rng T) th k (iterate n) (1 / drv (slope_at n)) = Ok (-1)).
  Proof.
    induction k as [|k IH]; intros n; rewrite newton_step.
    - destruct (Rltb_spec (Rabs (residual (iterate n))) tol) as [L|L].
      + left. exists 0%nat. rewrite Nat.add_0_r. split; [lia|]. split; [intros; lia|]. left. auto.
      + destruct (Rltb_spec (iterate (S n)) emin) as [L'|L'].
        * left. exists 0%nat. rewrite Nat.add_0_r. split; [lia|]. split; [intros; lia|]. right.
          repeat split; auto. lra.
        * right. split; auto. intros j Hj. replace j with 0%nat by lia. rewrite Nat.add_0_r. lra.
    - destruct (Rltb_spec (Rabs (residual (iterate n))) tol) as [L|L].
      + left. exists 0%nat. rewrite Nat.add_0_r. split; [lia|]. split; [intros; lia|]. left. auto.
      + destruct (Rltb_spec (iterate (S n)) emin) as [L'|L'].
        * left. exists 0%nat. rewrite Nat.add_0_r. split; [lia|]. split; [intros; lia|]. right.
          repeat split; auto. lra.
        * assert (X : forall j, (S n + j = n + S j)%nat) by (intros; lia).
          destruct (IH (S n)) as [(m & Hm & Hj & HH)|(Hj & HH)].
          -- left. exists (S m). split; [lia|]. split.
             ++ intros j Hjm. destruct j as [|j]; [rewrite Nat.add_0_r; lra|].
                rewrite <- X. apply Hj. lia.
             ++ rewrite <- X. exact HH.
          -- right. split; [|exact HH]. intros j Hjm. destruct j as [|j]; [rewrite Nat.add_0_r; lra|].
             rewrite <- X. apply Hj. lia.
  Qed.

  Lemma energy_out_start : th < rng T ->
    energy_out_fn f g T th = newton f g (rng T) th 100 (iterate 0) (1 / drv T).
  Proof.
    intros L. unfold energy_out_fn, f, g. cbn [bind]. cbv zeta. numR.
    destruct (Rleb_spec (rng T) th); [lra|]. cbn [iterate].
    replace (Rlit 1.0) with 1 by (dec_norm; lra).
    replace (th * (1 / drv T)) with (th / drv T) by (unfold Rdiv; ring). reflexivity.
  Qed.
End Newton.

(** ** Vector calls, any arithmetic *)
Section Vector.
  Context {F : Type} {N : Num F}.
  Variable junk : nat -> F * F.

  Definition same_tables (a b : DataPoint F) : Prop :=
    dp_range a = dp_range b /\ dp_rs a = dp_rs b /\ dp_av a = dp_av b /\
    dp_range_spline a = dp_range_spline b /\ dp_rs_spline a = dp_rs_spline b /\
    dp_av_spline a = dp_av_spline b.

  Lemma same_data_T (p : Projectile F) (e th : F) (t : Material F) (c : Config F) : same_data p t c (at_T p e) (set_thickness t th) c.
  Proof. destruct p, t. unfold same_data; simpl. auto 20. Qed.

  Lemma key_match_T (p : Projectile F) (e th : F) (t : Material F) (c : Config F) (d : DataPoint F) :
    key_match (at_T p e) (set_thickness t th) c d = key_match p t c d.
  Proof. reflexivity. Qed.

  Lemma rcalc_T k (p : Projectile F) (e th : F) (t : Material F) (c : Config F) :
    osim same_tables (rcalc junk calculate_DataPoint k p t c)
      (rcalc junk calculate_DataPoint k (at_T p e) (set_thickness t th) c).
  Proof.
    unfold rcalc, calculate_DataPoint.
    pose proof (same_data_T p e th t c) as S.
    rewrite (range_table_same _ _ _ _ _ _ S), (straggling_table_same _ _ _ _ _ _ S),
      (angular_table_same _ _ _ _ _ _ S eq_refl).
    destruct (range_table (at_T p e) _ c) as [r|]; [|reflexivity]. cbn [bind].
    destruct (angular_table (at_T p e) _ c) as [a|]; [|reflexivity]. cbn [bind].
    destruct (straggling_table (at_T p e) _ c) as [s|]; [|reflexivity]. cbn [bind].
    unfold with_splines. cbn [dp_range dp_rs dp_av dp_p dp_m dp_c].
    destruct (make_spline energy_table r _); [|reflexivity]. cbn [bind].
    destruct (make_spline energy_table s _); [|reflexivity]. cbn [bind].
    destruct (make_spline energy_table a _); [|reflexivity]. cbn [bind].
    cbn [osim]. unfold same_tables. cbn. auto 10.
  Qed.

  Lemma lookup_T w p e th t c : wf w ->
    osim (fun a b => same_tables (fst a) (fst b))
      (lookup junk p t c w) (lookup junk (at_T p e) (set_thickness t th) c w).
  Proof.
    intros W. unfold lookup.
    destruct (get_spec junk calculate_DataPoint w p t c W)
      as [(i & d & G & Hi & EI & M)|(A & _)].
    - assert (G' : data_get junk calculate_DataPoint (at_T p e) (set_thickness t th) c w = Ok (i, w)).
      { unfold data_get in G |- *.
        rewrite (find_slot_ext (key_match (at_T p e) (set_thickness t th) c) (key_match p t c))
          by (intros; apply key_match_T).
        destruct (find_slot (key_match p t c) (w_slots w)) eqn:FS; [exact G|].
        apply find_slot_none with (e := d) in FS; [congruence|]. eapply nth_error_In; eauto. }
      rewrite G, G'. cbn [bind]. unfold slot. rewrite EI. cbn [bind osim fst]. unfold same_tables; auto 10.
    - assert (X : existsb (key_match p t c) (w_slots w) = false).
      { apply find_slot_existsb. apply find_slot_none. assumption. }
      rewrite (get_absent junk calculate_DataPoint p t c w W X).
      rewrite (get_absent junk calculate_DataPoint (at_T p e) (set_thickness t th) c w W X).
      pose proof (rcalc_T (w_junk w) p e th t c) as S.
      destruct (rcalc junk _ _ p t c) as [d1|] eqn:R1;
        destruct (rcalc junk _ _ (at_T p e) _ c) as [d2|] eqn:R2; simpl in S; try contradiction.
      + cbn [bind]. unfold slot. cbn [w_slots].
        rewrite !set_slot_same by now apply cursor_in. cbn [bind osim fst]. exact S.
      + cbn [bind osim]. exact S.
  Qed.

  (** a key looked up is found again, at every energy and thickness, with nothing changed *)
  Lemma lookup_again w p t c d w' e th : wf w -> self_key p t c ->
    lookup junk p t c w = Ok (d, w') ->
    lookup junk (at_T p e) (set_thickness t th) c w' = Ok (d, w') /\ wf w'.
  Proof.
    intros W SK L. unfold lookup in L. apply bind_ok in L. destruct L as ([i w1] & G & L).
    apply bind_ok in L. destruct L as (d' & S & L). inversion L; subst. clear L.
    pose proof (get_twice junk calculate_DataPoint calc_keys w p t c i w' W SK G) as G2.
    assert (W' : wf w').
    { apply (run_wf junk calculate_DataPoint [OpGet p t c] w w' W). cbn. rewrite G. reflexivity. }
    split; [|exact W'].
    assert (FS : find_slot (key_match p t c) (w_slots w') = Some i).
    { destruct (get_spec junk calculate_DataPoint w' p t c W')
        as [(i' & e' & G' & Hi & EI & M)|(A & [(why & R & G')|(d' & R & G' & EI)])].
      - rewrite G2 in G'. inversion G'; subst i'.
        unfold data_get in G2. destruct (find_slot (key_match p t c) (w_slots w')) as [j|] eqn:FS.
        + congruence.
        + apply find_slot_none with (e := e') in FS; [congruence|]. eapply nth_error_In; eauto.
      - congruence.
      - rewrite G2 in G'. injection G' as _ G'. exfalso.
        apply (f_equal w_junk) in G'. cbn in G'. lia. }
    unfold lookup, data_get.
    rewrite (find_slot_ext (key_match (at_T p e) (set_thickness t th) c) (key_match p t c))
      by (intros; apply key_match_T).
    rewrite FS. cbn [bind]. rewrite S. reflexivity.
  Qed.

  Lemma omapM_nth {A B} (f : A -> outcome B) l : forall l' i x, omapM f l = Ok l' ->
    nth_error l i = Some x -> exists y, nth_error l' i = Some y /\ f x = Ok y.
  Proof.
    induction l as [|a l IH]; intros l' i x H E; [destruct i; discriminate|].
    cbn in H. apply bind_ok in H. destruct H as (b & Ha & H). apply bind_ok in H.
    destruct H as (bs & Hb & H). inversion H; subst. destruct i as [|i]; cbn in E.
    - inversion E; subst. exists b. auto.
    - cbn. eapply IH; eauto.
  Qed.
End Vector.
