(** * C05: the entries of the cache in memory *)
From Coq Require Import ZArith Reals List Bool Lra Lia.
From Verif Require Import Num NumR NumF Structures EnergyTable Spline Integrator Calculations Storage Catima
  StorageHeap CacheProofs CacheFresh History KeyEq ApiCache BoundsProofs TotalProofs ApiTotal Cases PropCache.
Import ListNotations.

(** ** What it means for an entry to be self-contained *)
(** nothing in it: no tables, null splines *)
Definition blank {F} (x : hslot F) : Prop :=
  hs_range x = None /\ hs_rs x = None /\ hs_av x = None /\
  hs_range_spline x = HNull /\ hs_rs_spline x = HNull /\ hs_av_spline x = HNull.
(** the spline points at the buffer of this vector, and the buffer is allocated *)
Definition points_into {F} (h : heap F) (s : hspline F) (v : option nat) : Prop :=
  exists b l c, v = Some b /\ s = HBuilt b c /\ nth_error h b = Some (Some l).
Definition self_contained {F} (h : heap F) (x : hslot F) : Prop :=
  points_into h (hs_range_spline x) (hs_range x) /\ points_into h (hs_rs_spline x) (hs_rs x) /\
  points_into h (hs_av_spline x) (hs_av x).
Definition buffers {F} (x : hslot F) : list nat :=
  let f v := match v with Some b => [b] | None => [] end in f (hs_range x) ++ f (hs_rs x) ++ f (hs_av x).

Section Proofs.
  Context {F : Type} {N : Num F}.

  Definition shape (h : heap F) (x : hslot F) (d : DataPoint F) : Prop :=
    (x = hslot0 /\ d = DataPoint0) \/
    exists b1 b2 b3 s1 s2 s3,
      x = mkHS (dp_p d) (dp_m d) (dp_c d) (Some b1) (Some b2) (Some b3) (HBuilt b1 s1) (HBuilt b2 s2) (HBuilt b3 s3) /\
      nth_error h b1 = Some (Some (dp_range d)) /\ nth_error h b2 = Some (Some (dp_rs d)) /\ nth_error h b3 = Some (Some (dp_av d)) /\
      dp_range_spline d = Some (with_y s1 (dp_range d)) /\ dp_rs_spline d = Some (with_y s2 (dp_rs d)) /\
      dp_av_spline d = Some (with_y s3 (dp_av d)).
  Definition apart (l : list (hslot F)) : Prop :=
    forall i j x y b, i <> j -> nth_error l i = Some x -> nth_error l j = Some y -> In b (buffers x) -> In b (buffers y) -> False.
  Definition mirrors (hw : hworld F) (w : world F) : Prop :=
    Forall2 (shape (hw_heap hw)) (hw_slots hw) (w_slots w) /\ apart (hw_slots hw) /\
    hw_index hw = w_index w /\ hw_default hw = w_default w /\ hw_junk hw = w_junk w.

  Lemma block_ok (h : heap F) b l : nth_error h b = Some (Some l) -> block h b = Ok l.
  Proof. unfold block. intros ->. reflexivity. Qed.
  Lemma release1_nth (h : heap F) : forall a b, a <> b -> nth_error (release1 h a) b = nth_error h b.
  Proof.
    induction h as [|x h IH]; intros a b NE; [reflexivity|]. destruct a as [|a], b as [|b]; cbn; try reflexivity; [contradiction|].
    apply IH. congruence.
  Qed.
  Lemma release1_len (h : heap F) : forall a, length (release1 h a) = length h.
  Proof. induction h as [|x h IH]; intros [|a]; cbn; try reflexivity. now rewrite IH. Qed.
  Lemma release_nth (h : heap F) v b : v <> Some b -> nth_error (release h v) b = nth_error h b.
  Proof. destruct v as [a|]; cbn; intros NE; [|reflexivity]. apply release1_nth. congruence. Qed.
  Lemma release_nth_none (h : heap F) v b l : nth_error (release h v) b = Some (Some l) -> nth_error h b = Some (Some l).
  Proof.
    destruct v as [a|]; cbn; [|auto]. revert a b. induction h as [|x h IH]; intros [|a] [|b]; cbn; auto; try discriminate. apply IH.
  Qed.
  Lemma release1_same (h : heap F) : forall b l, nth_error h b = Some l -> nth_error (release1 h b) b = Some None.
  Proof. induction h as [|x h IH]; intros [|b] l H; cbn in *; try discriminate; [reflexivity|]. eapply IH, H. Qed.

  Lemma released (h : heap F) (dst : hslot F) b l : nth_error h b = Some (Some l) -> ~ In b (buffers dst) ->
    nth_error (release (release (release h (hs_range dst)) (hs_rs dst)) (hs_av dst)) b = Some (Some l).
  Proof.
    intros H NI. unfold buffers in NI.
    rewrite !release_nth; [exact H| | |]; intros E; apply NI; rewrite E; rewrite ?in_app_iff; cbn; auto.
  Qed.

  Lemma shape_frame (h h' : heap F) x d : shape h x d ->
    (forall b l, In b (buffers x) -> nth_error h b = Some (Some l) -> nth_error h' b = Some (Some l)) -> shape h' x d.
  Proof.
    intros [[-> ->]|(b1 & b2 & b3 & s1 & s2 & s3 & -> & N1 & N2 & N3 & R)] H; [left; auto|]. right.
    exists b1, b2, b3, s1, s2, s3. split; [reflexivity|].
    split; [apply H; [cbn; auto|exact N1]|]. split; [apply H; [cbn; auto|exact N2]|]. split; [apply H; [cbn; auto|exact N3]|]. exact R.
  Qed.
  Lemma shape_live h x d b : shape h x d -> In b (buffers x) -> exists l, nth_error h b = Some (Some l).
  Proof.
    intros [[-> ->]|(b1 & b2 & b3 & s1 & s2 & s3 & -> & N1 & N2 & N3 & _)] I; [destruct I|].
    destruct I as [<-|[<-|[<-|[]]]]; eauto.
  Qed.
  Lemma shape_key h x d (q : DataPoint F -> bool) :
    (forall a b, dp_p a = dp_p b -> dp_m a = dp_m b -> dp_c a = dp_c b -> q a = q b) -> shape h x d -> q (hkey x) = q d.
  Proof. intros Q [[-> ->]|(b1 & b2 & b3 & s1 & s2 & s3 & -> & _)]; apply Q; reflexivity. Qed.

  Lemma find_mirrors h (q : DataPoint F -> bool) :
    (forall a b, dp_p a = dp_p b -> dp_m a = dp_m b -> dp_c a = dp_c b -> q a = q b) ->
    forall l l', Forall2 (shape h) l l' -> find_hslot q l = find_slot q l'.
  Proof.
    intros Q l l' H. induction H as [|x d l l' S _ IH]; [reflexivity|]. cbn. rewrite (shape_key h x d q Q S), IH. reflexivity.
  Qed.
  Lemma key_match_keys (p : Projectile F) t c a b : dp_p a = dp_p b -> dp_m a = dp_m b -> dp_c a = dp_c b -> key_match p t c a = key_match p t c b.
  Proof. unfold key_match. intros -> -> ->. reflexivity. Qed.
  Lemma dp_eqb_keys (e a b : DataPoint F) : dp_p a = dp_p b -> dp_m a = dp_m b -> dp_c a = dp_c b -> dp_eqb a e = dp_eqb b e.
  Proof. unfold dp_eqb. intros -> -> ->. reflexivity. Qed.

  Lemma make_spline_y (t : EnergyTable F) l j s : make_spline t l j = Ok s -> with_y (with_y s []) l = s.
  Proof.
    unfold make_spline. destruct (length l <? et_n t)%nat; [discriminate|]. intros H. apply bind_ok in H. destruct H as (b & _ & H).
    injection H as <-. reflexivity.
  Qed.

  Lemma set_hslot_nth (l : list (hslot F)) : forall i x j, (i < length l)%nat ->
    nth_error (set_hslot l i x) j = if Nat.eqb j i then Some x else nth_error l j.
  Proof.
    induction l as [|y l IH]; intros i x j L; [cbn in L; lia|]. destruct i as [|i], j as [|j]; cbn; try reflexivity.
    apply IH. cbn in L. lia.
  Qed.
  Lemma Forall2_nth_error_l {A B} (P : A -> B -> Prop) l l' : Forall2 P l l' -> forall i x, nth_error l i = Some x ->
    exists y, nth_error l' i = Some y /\ P x y.
  Proof. induction 1 as [|a b l l' AB _ IH]; intros [|i] x E; cbn in *; try discriminate; [injection E as <-; eauto|apply IH, E]. Qed.
  Lemma Forall2_length {A B} (P : A -> B -> Prop) l l' : Forall2 P l l' -> length l = length l'.
  Proof. induction 1; cbn; congruence. Qed.

  Lemma forall2_frame (P Q : hslot F -> DataPoint F -> Prop) l l' : Forall2 P l l' ->
    (forall j y e, nth_error l j = Some y -> P y e -> Q y e) -> Forall2 Q l l'.
  Proof.
    induction 1 as [|y e l l' Y _ IH]; intros T; constructor; [apply (T 0%nat); auto|]. apply IH. intros j y' e' E. apply (T (S j)). exact E.
  Qed.
  Lemma set_frame (P Q : hslot F -> DataPoint F -> Prop) l l' : Forall2 P l l' -> forall i x d,
    (forall j y e, j <> i -> nth_error l j = Some y -> P y e -> Q y e) -> Q x d -> Forall2 Q (set_hslot l i x) (set_slot l' i d).
  Proof.
    induction 1 as [|y e l l' Y FF IH]; intros i x d T X; [destruct i; constructor|].
    destruct i as [|i]; cbn [set_hslot set_slot].
    - constructor; [exact X|]. apply (forall2_frame P); [exact FF|]. intros j y' e' E. apply (T (S j)); [discriminate|exact E].
    - constructor; [apply (T 0%nat); auto|]. apply IH; [|exact X]. intros j y' e' NE E. apply (T (S j)); [congruence|exact E].
  Qed.

  Variable junk : nat -> F * F.

  Lemma add_mirrors p t c hw w : wf w -> mirrors hw w ->
    match hadd junk calculate_DataPoint p t c hw, data_add junk calculate_DataPoint p t c w with
    | Ok hw', Ok w' => mirrors hw' w'
    | UB a, UB b => a = b
    | _, _ => False
    end.
  Proof.
    intros W (SS & AP & EI & ED & EJ). unfold hadd, data_add.
    rewrite (find_mirrors (hw_heap hw) _ (dp_eqb_keys _) _ _ SS).
    destruct (find_slot _ (w_slots w)) as [k|]; [repeat split; auto|].
    rewrite EI. rewrite <- (Forall2_length _ _ _ SS). set (i := if Nat.eqb (w_index w) (length (hw_slots hw)) then 0%nat else w_index w).
    unfold hcalc. destruct (calculate_DataPoint p t c) as [d|why] eqn:EC; cbn [bind]; [|reflexivity].
    destruct (calc_keys p t c d EC) as (KP & KM & KC).
    assert (IL : (i < length (hw_slots hw))%nat).
    { unfold i. destruct W as [WL WI]. rewrite (Forall2_length _ _ _ SS). destruct (Nat.eqb_spec (w_index w) (length (w_slots w))); lia. }
    destruct (nth_error (hw_slots hw) i) as [dst|] eqn:ND; [|apply nth_error_None in ND; lia].
    cbn [hmove hs_range hs_rs hs_av hs_p hs_m hs_c hbuild].
    set (n := length (hw_heap hw)). set (h1 := hw_heap hw ++ [Some (dp_range d); Some (dp_rs d); Some (dp_av d)]).
    set (h2 := release (release (release h1 (hs_range dst)) (hs_rs dst)) (hs_av dst)).
    assert (DL : forall b, In b (buffers dst) -> (b < n)%nat).
    { intros b I. destruct (Forall2_nth_error_l _ _ _ SS i dst ND) as (dd & _ & SD). destruct (shape_live _ _ _ _ SD I) as (l & E).
      unfold n. apply nth_error_Some. congruence. }
    assert (NEW : forall k l, nth_error [Some (dp_range d); Some (dp_rs d); Some (dp_av d)] k = Some (Some l) -> nth_error h2 (n + k) = Some (Some l)).
    { intros k l E. apply released.
      - unfold h1, n. rewrite nth_error_app2 by lia. replace (length (hw_heap hw) + k - length (hw_heap hw))%nat with k by lia. exact E.
      - intros I. apply DL in I. lia. }
    pose proof (NEW 0%nat _ eq_refl) as N0. pose proof (NEW 1%nat _ eq_refl) as N1. pose proof (NEW 2%nat _ eq_refl) as N2.
    replace (n + 0)%nat with n in N0 by lia. replace (n + 1)%nat with (S n) in N1 by lia. replace (n + 2)%nat with (S (S n)) in N2 by lia.
    rewrite (block_ok _ _ _ N0), (block_ok _ _ _ N1), (block_ok _ _ _ N2). unfold with_splines. cbn [bind]. rewrite EJ.
    destruct (make_spline energy_table (dp_range d) (junk (w_junk w))) as [s1|] eqn:M1; cbn [bind]; [|reflexivity].
    destruct (make_spline energy_table (dp_rs d) (junk (w_junk w + 1)%nat)) as [s2|] eqn:M2; cbn [bind]; [|reflexivity].
    destruct (make_spline energy_table (dp_av d) (junk (w_junk w + 2)%nat)) as [s3|] eqn:M3; cbn [bind]; [|reflexivity].
    destruct (Nat.ltb_spec i (length (hw_slots hw))); [|lia].
    split; [|split; [|split; [reflexivity|split; [exact ED|reflexivity]]]]; cbn [hw_heap hw_slots w_slots].
    - (* the other entries keep their buffers *)
      assert (SH : forall j x dd, j <> i -> nth_error (hw_slots hw) j = Some x -> shape (hw_heap hw) x dd -> shape h2 x dd).
      { intros j x dd NE NJ SX. eapply shape_frame; [exact SX|]. intros b l I E. apply released.
        - unfold h1. rewrite nth_error_app1; [exact E|]. apply nth_error_Some. congruence.
        - intros I'. exact (AP j i x dst b NE NJ ND I I'). }
      assert (NEWS : shape h2 (mkHS p t c (Some n) (Some (S n)) (Some (S (S n))) (HBuilt n (with_y s1 [])) (HBuilt (S n) (with_y s2 [])) (HBuilt (S (S n)) (with_y s3 [])))
               (mkDP (dp_p d) (dp_m d) (dp_c d) (dp_range d) (dp_rs d) (dp_av d) (Some s1) (Some s2) (Some s3))).
      { right. exists n, (S n), (S (S n)), (with_y s1 []), (with_y s2 []), (with_y s3 []). cbn [dp_p dp_m dp_c dp_range dp_rs dp_av dp_range_spline dp_rs_spline dp_av_spline].
        rewrite KP, KM, KC. rewrite (make_spline_y _ _ _ _ M1), (make_spline_y _ _ _ _ M2), (make_spline_y _ _ _ _ M3). auto 10. }
      exact (set_frame _ _ _ _ SS i _ _ SH NEWS).
    - intros j k x y b NE X Y I I'. rewrite set_hslot_nth in X, Y by exact IL.
      assert (OLD : forall j x, nth_error (hw_slots hw) j = Some x -> In b (buffers x) -> (b < n)%nat).
      { intros j' x' E B. destruct (Forall2_nth_error_l _ _ _ SS j' x' E) as (dd & _ & SD). destruct (shape_live _ _ _ _ SD B) as (l & EL).
        unfold n. apply nth_error_Some. congruence. }
      destruct (Nat.eqb_spec j i), (Nat.eqb_spec k i); subst; try lia.
      + injection X as <-. apply OLD in Y; [|exact I']. destruct I as [<-|[<-|[<-|[]]]]; lia.
      + injection Y as <-. apply OLD in X; [|exact I]. destruct I' as [<-|[<-|[<-|[]]]]; lia.
      + exact (AP j k x y b NE X Y I I').
  Qed.

  Lemma get_mirrors p t c hw w : wf w -> mirrors hw w ->
    match hget junk calculate_DataPoint p t c hw, data_get junk calculate_DataPoint p t c w with
    | Ok (i, hw'), Ok (j, w') => i = j /\ mirrors hw' w'
    | UB a, UB b => a = b
    | _, _ => False
    end.
  Proof.
    intros W M. unfold hget, data_get. destruct M as (SS & AP & EI & ED & EJ).
    rewrite (find_mirrors (hw_heap hw) _ (key_match_keys p t c) _ _ SS).
    destruct (find_slot _ (w_slots w)) as [k|]; [repeat split; auto|].
    pose proof (add_mirrors p t c hw w W (conj SS (conj AP (conj EI (conj ED EJ))))) as A.
    destruct (hadd junk calculate_DataPoint p t c hw) as [hw'|], (data_add junk calculate_DataPoint p t c w) as [w'|]; cbn [bind]; try contradiction; [|exact A].
    destruct A as (SS' & AP' & EI' & R'). rewrite EI'. destruct (w_index w') as [|k] eqn:EK; [reflexivity|]. split; [reflexivity|].
    split; [exact SS'|]. split; [exact AP'|]. split; [congruence|exact R'].
  Qed.
  Lemma mirrors0 hw : forall w, hw_slots hw = repeat hslot0 60 -> w_slots w = repeat DataPoint0 60 -> hw_index hw = w_index w ->
    hw_default hw = w_default w -> hw_junk hw = w_junk w -> mirrors hw w.
  Proof.
    intros w E1 E2 E3 E4 E5. split; [|split; [|auto]].
    - rewrite E1, E2. generalize 60%nat. intros n. induction n; cbn; constructor; [left; auto|assumption].
    - intros i j x y b _ X _ I _. rewrite E1 in X. apply nth_error_In, repeat_spec in X. subst x. destruct I.
  Qed.
  Lemma step_mirrors o hw w : wf w -> mirrors hw w ->
    match hstep junk calculate_DataPoint hw o, step junk calculate_DataPoint w o with
    | Ok hw', Ok w' => mirrors hw' w'
    | UB a, UB b => a = b
    | _, _ => False
    end.
  Proof.
    intros W M. destruct o as [p t c|p t c| |c]; cbn [hstep step].
    - pose proof (get_mirrors p t c hw w W M) as G. destruct (hget _ _ p t c hw) as [[i hw']|], (data_get _ _ p t c w) as [[j w']|]; cbn; try contradiction; [apply G|exact G].
    - exact (add_mirrors p t c hw w W M).
    - destruct M as (_ & _ & EI & ED & EJ). apply mirrors0; auto.
    - destruct M as (SS & AP & EI & ED & EJ). split; [exact SS|]. split; [exact AP|]. auto.
  Qed.
  Lemma run_mirrors ops : forall hw w, wf w -> mirrors hw w ->
    match hrun junk calculate_DataPoint ops hw, run junk calculate_DataPoint ops w with
    | Ok hw', Ok w' => mirrors hw' w'
    | UB a, UB b => a = b
    | _, _ => False
    end.
  Proof.
    induction ops as [|o ops IH]; intros hw w W M; [exact M|]. unfold hrun, run. cbn [ofold].
    pose proof (step_mirrors o hw w W M) as S1.
    destruct (hstep junk calculate_DataPoint hw o) as [hw1|] eqn:EH, (step junk calculate_DataPoint w o) as [w1|] eqn:EW; cbn [bind]; try contradiction; [|exact S1].
    exact (IH hw1 w1 (wf_step _ _ _ _ _ W EW) S1).
  Qed.
  Lemma world0_mirrors : mirrors hworld0 world0.
  Proof. apply mirrors0; reflexivity. Qed.

  Lemma shape_ok h x d : shape h x d -> blank x \/ self_contained h x.
  Proof.
    intros [[-> _]|(b1 & b2 & b3 & s1 & s2 & s3 & -> & N1 & N2 & N3 & _)]; [left; repeat split|right].
    repeat split; cbn; eexists; eexists; eexists; eauto.
  Qed.
  Lemma with_y_deriv s l e : spline_deriv (with_y s l) e = spline_deriv (F:=F) s e.
  Proof. reflexivity. Qed.
  Definition same_curve (h : heap F) (s : hspline F) (s' : option (spline F)) : Prop :=
    forall e, heval h s e = interp_eval s' e /\ hderiv h s e = interp_deriv s' e.
  Lemma shape_curves h x d : shape h x d ->
    same_curve h (hs_range_spline x) (dp_range_spline d) /\ same_curve h (hs_rs_spline x) (dp_rs_spline d) /\
    same_curve h (hs_av_spline x) (dp_av_spline d).
  Proof.
    intros [[-> ->]|(b1 & b2 & b3 & s1 & s2 & s3 & -> & N1 & N2 & N3 & E1 & E2 & E3)]; [split; [|split]; intros e; split; reflexivity|].
    cbn [hs_range_spline hs_rs_spline hs_av_spline]. rewrite E1, E2, E3.
    split; [|split]; intros e; (split; [unfold heval; rewrite ?(block_ok _ _ _ N1), ?(block_ok _ _ _ N2), ?(block_ok _ _ _ N3); reflexivity|reflexivity]).
  Qed.
End Proofs.

(** ** C05: every entry, after any history *)
Theorem C05_self_contained {F} {N : Num F} (junk : nat -> F * F) ops hw : hrun junk calculate_DataPoint ops hworld0 = Ok hw ->
  length (hw_slots hw) = 60%nat /\
  (forall i x, nth_error (hw_slots hw) i = Some x -> blank x \/ self_contained (hw_heap hw) x) /\
  (forall i j x y b, i <> j -> nth_error (hw_slots hw) i = Some x -> nth_error (hw_slots hw) j = Some y ->
     In b (buffers x) -> ~ In b (buffers y)).
Proof.
  intros E. pose proof (run_mirrors junk ops hworld0 world0 wf_world0 world0_mirrors) as M. rewrite E in M.
  destruct (run junk calculate_DataPoint ops world0) as [w|] eqn:RW; [|contradiction]. destruct M as (SS & AP & _).
  assert (W : wf w) by (eapply run_wf; [apply wf_world0|exact RW]).
  split; [rewrite (Forall2_length _ _ _ SS); apply W|]. split.
  - intros i x X. destruct (Forall2_nth_error_l _ _ _ SS i x X) as (d & _ & SD). exact (shape_ok _ _ _ SD).
  - intros i j x y b NE X Y I I'. exact (AP i j x y b NE X Y I I').
Qed.
Print Assumptions C05_self_contained.

(** the numbers read through the pointers are those of the value model, in every reachable state, and
    neither model fails where the other does not *)
Theorem C05_same_numbers {F} {N : Num F} (junk : nat -> F * F) ops :
  match hrun junk calculate_DataPoint ops hworld0, run junk calculate_DataPoint ops world0 with
  | Ok hw, Ok w =>
      hw_index hw = w_index w /\ length (hw_slots hw) = length (w_slots w) /\
      forall i x d, nth_error (hw_slots hw) i = Some x -> nth_error (w_slots w) i = Some d ->
        hs_p x = dp_p d /\ hs_m x = dp_m d /\ hs_c x = dp_c d /\
        forall e,
          heval (hw_heap hw) (hs_range_spline x) e = interp_eval (dp_range_spline d) e /\
          hderiv (hw_heap hw) (hs_range_spline x) e = interp_deriv (dp_range_spline d) e /\
          heval (hw_heap hw) (hs_rs_spline x) e = interp_eval (dp_rs_spline d) e /\
          hderiv (hw_heap hw) (hs_rs_spline x) e = interp_deriv (dp_rs_spline d) e /\
          heval (hw_heap hw) (hs_av_spline x) e = interp_eval (dp_av_spline d) e /\
          hderiv (hw_heap hw) (hs_av_spline x) e = interp_deriv (dp_av_spline d) e
  | UB a, UB b => a = b
  | _, _ => False
  end.
Proof.
  pose proof (run_mirrors junk ops hworld0 world0 wf_world0 world0_mirrors) as M.
  destruct (hrun junk calculate_DataPoint ops hworld0) as [hw|], (run junk calculate_DataPoint ops world0) as [w|]; try contradiction; [|exact M].
  destruct M as (SS & _ & EI & _). split; [exact EI|]. split; [exact (Forall2_length _ _ _ SS)|].
  intros i x d X D. destruct (Forall2_nth_error_l _ _ _ SS i x X) as (d' & D' & SD). rewrite D in D'. injection D' as <-.
  split; [|split; [|split]]; try (destruct SD as [[-> ->]|(b1 & b2 & b3 & s1 & s2 & s3 & -> & _)]; reflexivity).
  intros e. destruct (shape_curves _ _ _ SD) as (C1 & C2 & C3). destruct (C1 e), (C2 e), (C3 e). auto 10.
Qed.
Print Assumptions C05_same_numbers.

Local Open Scope R_scope.
(** lookups of physical keys: the curves of every occupied entry are defined at every energy *)
Definition physical (o : op R) : Prop :=
  match o with OpGet p t _ => legit_p p /\ legit_t t | OpAdd _ _ _ => False | OpReset | OpConfig _ => True end.
Lemma physical_run (junk : nat -> R * R) ops : forall w, world_ok w -> Forall physical ops ->
  exists w', run junk calculate_DataPoint ops w = Ok w' /\ world_ok w'.
Proof.
  induction ops as [|o ops IH]; intros w W P; [exists w; split; [reflexivity|exact W]|]. inversion P; subst.
  assert (S : exists w1, step junk calculate_DataPoint w o = Ok w1 /\ world_ok w1).
  { destruct o as [p t c|p t c| |c]; cbn [step] in *; [|contradiction| |].
    - destruct H1 as [LP LT]. destruct (lookup_total junk p t c w LP LT W) as (d & w' & L & _ & OW & _). unfold lookup in L.
      destruct (data_get junk calculate_DataPoint p t c w) as [[i w1]|]; [|discriminate]. cbn [bind] in L.
      destruct (slot w1 i); [|discriminate]. cbn [bind] in L. injection L as _ <-. exists w1. split; [reflexivity|exact OW].
    - eexists. split; [reflexivity|apply world_ok_reset].
    - eexists. split; [reflexivity|]. destruct W as [[W1 W2] V]. split; [split|]; assumption. }
  destruct S as (w1 & S1 & O1). destruct (IH w1 O1 H2) as (w2 & R2 & O2). exists w2. split; [|exact O2].
  unfold run in *. cbn [ofold]. rewrite S1. exact R2.
Qed.
Theorem C05_defined (junk : nat -> R * R) ops : Forall physical ops ->
  exists hw, hrun junk calculate_DataPoint ops hworld0 = Ok hw /\
    forall i x, nth_error (hw_slots hw) i = Some x -> blank x \/
      (self_contained (hw_heap hw) x /\
       forall s e, In s [hs_range_spline x; hs_rs_spline x; hs_av_spline x] ->
         (exists v, heval (hw_heap hw) s e = Ok v) /\ (exists v, hderiv (hw_heap hw) s e = Ok v)).
Proof.
  intros P. destruct (physical_run junk ops world0 world_ok0 P) as (w & RW & [W V]).
  pose proof (run_mirrors junk ops hworld0 world0 wf_world0 world0_mirrors) as M. rewrite RW in M.
  destruct (hrun junk calculate_DataPoint ops hworld0) as [hw|] eqn:RH; [|contradiction]. exists hw. split; [reflexivity|].
  intros i x X. destruct M as (SS & _). destruct (Forall2_nth_error_l _ _ _ SS i x X) as (d & D & SD).
  destruct (shape_ok _ _ _ SD) as [B|B]; [left; exact B|]. right. split; [exact B|].
  rewrite Forall_forall in V. destruct (V d (nth_error_In _ _ D)) as [->|OD].
  { exfalso. destruct SD as [[-> _]|(b1 & b2 & b3 & s1 & s2 & s3 & _ & _ & _ & _ & E & _)]; [|discriminate E]. destruct B as [(b & l & c & E & _) _]. discriminate E. }
  destruct (shape_curves _ _ _ SD) as (C1 & C2 & C3). intros s e I.
  destruct I as [<-|[<-|[<-|[]]]]; [destruct (C1 e) as [-> ->]|destruct (C2 e) as [-> ->]|destruct (C3 e) as [-> ->]]; split.
  - exact (dp_range_ok d e OD).
  - exact (dp_range_d_ok d e OD).
  - exact (dp_rs_ok d e OD).
  - exact (dp_rs_d_ok d e OD).
  - exact (dp_av_ok d e OD).
  - exact (dp_av_d_ok d e OD).
Qed.
Print Assumptions C05_defined.
Example C05_case : exists hw i x, hrun junk0 calculate_DataPoint [OpGet (proton 10) (water 1) conf; OpGet (carbon 10) (water 1) conf] hworld0 = Ok hw /\
  nth_error (hw_slots hw) i = Some x /\ ~ blank x.
Proof.
  set (ops := [OpGet (proton 10) (water 1) conf; OpGet (carbon 10) (water 1) conf]).
  assert (P : Forall physical ops) by (repeat constructor; cbn; try lra; try lia).
  destruct (physical_run junk0 [OpGet (proton 10) (water 1) conf] world0 world_ok0) as (w1 & R1 & O1); [inversion P; subst; constructor; auto|].
  destruct (lookup_total junk0 (carbon 10) (water 1) conf w1) as (d & w2 & L & OD & _); auto with cases.
  unfold lookup in L. destruct (data_get junk0 calculate_DataPoint (carbon 10) (water 1) conf w1) as [[i w']|] eqn:G; [|discriminate].
  cbn [bind] in L. destruct (slot w' i) as [d'|] eqn:SL; [|discriminate]. cbn [bind] in L. injection L as -> <-.
  assert (RW : run junk0 calculate_DataPoint ops world0 = Ok w').
  { unfold run in *. cbn [ofold ops] in *. destruct (step junk0 calculate_DataPoint world0 (OpGet (proton 10) (water 1) conf)) as [w|]; [|discriminate].
    cbn [bind] in *. injection R1 as ->. cbn [step]. rewrite G. reflexivity. }
  pose proof (run_mirrors junk0 ops hworld0 world0 wf_world0 world0_mirrors) as M. rewrite RW in M.
  destruct (hrun junk0 calculate_DataPoint ops hworld0) as [hw|]; [|contradiction]. destruct M as (SS & _).
  unfold slot in SL. destruct (nth_error (w_slots w') i) as [d0|] eqn:ND; [|discriminate]. injection SL as ->.
  destruct (nth_error (hw_slots hw) i) as [x|] eqn:NX.
  2: { apply nth_error_None in NX. rewrite (Forall2_length _ _ _ SS) in NX. apply nth_error_None in NX. congruence. }
  exists hw, i, x. split; [reflexivity|]. split; [exact NX|]. intros (B & _).
  destruct (Forall2_nth_error_l _ _ _ SS i x NX) as (d2 & D2 & SD). rewrite ND in D2. injection D2 as <-.
  destruct SD as [[_ ->]|(b1 & b2 & b3 & s1 & s2 & s3 & -> & _)]; [|discriminate B].
  destruct OD as (? & ? & ? & E & _). discriminate E.
Qed.

(** ** C05: an entry that was never written *)
(** a key that compares equal to that of a default-constructed entry finds one, and using its range is
    undefined *)
Theorem C05_blank_lookup (junk : nat -> R * R) p t c : key_equiv Projectile0 Material0 Config0 p t c ->
  hget junk calculate_DataPoint p t c hworld0 = Ok (0%nat, hworld0) /\
  (exists x, nth_error (hw_slots (hworld0 (F:=R))) 0 = Some x /\ blank x /\ forall e, heval (hw_heap hworld0) (hs_range_spline x) e = UB NullDeref) /\
  exec junk (CRange p t c) world0 = UB NullDeref.
Proof.
  intros K. assert (M : key_match p t c DataPoint0 = true) by (apply key_match_R; exact K).
  split; [|split].
  - unfold hget. cbn [hworld0 hw_slots repeat max_storage_data find_hslot]. change (hkey hslot0) with (DataPoint0 (F:=R)). rewrite M. reflexivity.
  - exists hslot0. split; [reflexivity|]. split; [repeat split|]. reflexivity.
  - cbn [exec]. unfold one, range, lookup, data_get. change (w_slots world0) with (repeat (DataPoint0 (F:=R)) 60). cbn [repeat find_slot]. rewrite M. reflexivity.
Qed.
Print Assumptions C05_blank_lookup.
Corollary C05_default_refuted (junk : nat -> R * R) : exists p t c, p = Projectile0 /\ t = Material0 /\ c = Config0 /\
  exec junk (CRange p t c) world0 = UB NullDeref.
Proof. do 3 eexists. do 3 (split; [reflexivity|]). apply C05_blank_lookup. unfold key_equiv. rewrite !Rminus_eq_0, Rabs_R0. repeat split; lra. Qed.
Print Assumptions C05_default_refuted.
(** the same with doubles *)
Theorem C05_default_binary64_refuted (lm : Libm) (junk : nat -> PrimFloat.float * PrimFloat.float) :
  exec (N := NumF lm) junk (CRange (Projectile0 (N := NumF lm)) (Material0 (N := NumF lm)) (Config0 (N := NumF lm))) (world0 (N := NumF lm)) = UB NullDeref.
Proof.
  assert (M : key_match (N := NumF lm) (Projectile0 (N := NumF lm)) (Material0 (N := NumF lm)) (Config0 (N := NumF lm)) (DataPoint0 (N := NumF lm)) = true) by (vm_compute; reflexivity).
  cbn [exec]. unfold one, range, lookup, data_get. change (w_slots (world0 (N := NumF lm))) with (repeat (DataPoint0 (N := NumF lm)) 60).
  cbn [repeat find_slot]. rewrite M. reflexivity.
Qed.
Print Assumptions C05_default_binary64_refuted.

(** ** C05: copies of an entry *)
Lemma live_app {F} (h y : heap F) b l : nth_error h b = Some (Some l) -> nth_error (h ++ y) b = Some (Some l).
Proof. intros E. rewrite nth_error_app1; [exact E|]. apply nth_error_Some. congruence. Qed.
Lemma copy_result {F} {N : Num F} (h : heap F) (src : hslot F) : self_contained h src ->
  exists x y, hcopy hslot0 src h = Ok (x, h ++ y) /\
    hs_range_spline x = hs_range_spline src /\ hs_rs_spline x = hs_rs_spline src /\ hs_av_spline x = hs_av_spline src /\
    forall b, In b (buffers x) -> (length h <= b)%nat.
Proof.
  intros ((b1 & l1 & c1 & V1 & S1 & N1) & (b2 & l2 & c2 & V2 & S2 & N2) & (b3 & l3 & c3 & V3 & S3 & N3)).
  unfold hcopy. cbn [hslot0 hs_range hs_rs hs_av]. rewrite V1, V2, V3. unfold hcopy_vec.
  rewrite (block_ok _ _ _ N1). cbn [bind]. rewrite (block_ok _ _ _ (live_app h [Some l1] _ _ N2)). cbn [bind].
  rewrite (block_ok _ _ _ (live_app _ [Some l2] _ _ (live_app _ [Some l1] _ _ N3))). cbn [bind].
  rewrite <- !app_assoc. do 2 eexists. split; [reflexivity|]. cbn [hs_range_spline hs_rs_spline hs_av_spline].
  split; [reflexivity|]. split; [reflexivity|]. split; [reflexivity|].
  unfold buffers. cbn [hs_range hs_rs hs_av]. rewrite !app_length. cbn. intros b I. destruct I as [<-|[<-|[<-|[]]]]; lia.
Qed.
(** the copy has its own tables but its splines read the tables of the original *)
Theorem C05_copy_aliases {F} {N : Num F} (h : heap F) (src : hslot F) : self_contained h src ->
  exists x h', hcopy hslot0 src h = Ok (x, h') /\
    hs_range_spline x = hs_range_spline src /\ hs_rs_spline x = hs_rs_spline src /\ hs_av_spline x = hs_av_spline src /\
    self_contained h' src /\
    (forall b, In b (buffers x) -> ~ In b (buffers src)) /\
    (forall s e, In s [hs_range_spline x; hs_rs_spline x; hs_av_spline x] -> heval h' s e = heval h s e).
Proof.
  intros SC. destruct (copy_result h src SC) as (x & y & C & E1 & E2 & E3 & B). exists x, (h ++ y). do 4 (split; [assumption|]).
  destruct SC as ((b1 & l1 & c1 & V1 & S1 & N1) & (b2 & l2 & c2 & V2 & S2 & N2) & (b3 & l3 & c3 & V3 & S3 & N3)).
  pose proof (live_app h y _ _ N1) as M1. pose proof (live_app h y _ _ N2) as M2. pose proof (live_app h y _ _ N3) as M3.
  split; [split; [|split]; eexists; eexists; eexists; eauto|]. split.
  - intros b I J. apply B in I. assert (L : (b < length h)%nat).
    { unfold buffers in J. rewrite V1, V2, V3 in J. destruct J as [<-|[<-|[<-|[]]]]; apply nth_error_Some; congruence. }
    lia.
  - intros s e I. rewrite E1, E2, E3, S1, S2, S3 in I.
    destruct I as [<-|[<-|[<-|[]]]]; unfold heval;
      [rewrite (block_ok _ _ _ N1), (block_ok _ _ _ M1)|rewrite (block_ok _ _ _ N2), (block_ok _ _ _ M2)|rewrite (block_ok _ _ _ N3), (block_ok _ _ _ M3)]; reflexivity.
Qed.
Print Assumptions C05_copy_aliases.

Lemma release_dead {F} (h : heap F) v b : nth_error h b = Some None -> nth_error (release h v) b = Some None.
Proof.
  destruct v as [a|]; cbn; [|auto]. revert a b. induction h as [|x h IH]; intros [|a] [|b]; cbn; auto; try discriminate.
Qed.
Lemma released_dead {F} (h : heap F) (dst : hslot F) b l : nth_error h b = Some l -> In b (buffers dst) ->
  nth_error (release (release (release h (hs_range dst)) (hs_rs dst)) (hs_av dst)) b = Some None.
Proof.
  intros E I.
  assert (K : forall (h : heap F) v l, nth_error h b = Some l -> v = Some b -> nth_error (release h v) b = Some None) by (intros h' v l' E' ->; exact (release1_same h' b l' E')).
  assert (D : forall (h : heap F) v l, nth_error h b = Some l -> exists l', nth_error (release h v) b = Some l').
  { intros h' v l' E'. destruct v as [a|]; cbn; [|eauto]. destruct (Nat.eq_dec a b) as [->|NE]; [exists None; exact (release1_same h' b l' E')|].
    rewrite release1_nth by exact NE. eauto. }
  unfold buffers in I. rewrite !in_app_iff in I. destruct I as [I|[I|I]].
  - destruct (hs_range dst) as [a|] eqn:V; [|destruct I]. destruct I as [->|[]]. do 2 apply release_dead. exact (K h (Some b) l E eq_refl).
  - destruct (hs_rs dst) as [a|] eqn:V; [|destruct I]. destruct I as [->|[]]. destruct (D h (hs_range dst) l E) as (l' & E'). apply release_dead. exact (K _ (Some b) l' E' eq_refl).
  - destruct (hs_av dst) as [a|] eqn:V; [|destruct I]. destruct I as [->|[]]. destruct (D h (hs_range dst) l E) as (l' & E').
    destruct (D _ (hs_rs dst) l' E') as (l2 & E2). exact (K _ (Some b) l2 E2 eq_refl).
Qed.
Lemma fold_dead {F} (b : nat) (ls : list (hslot F)) : forall h, nth_error h b = Some None ->
  nth_error (fold_left (fun (h : heap F) x => release (release (release h (hs_range x)) (hs_rs x)) (hs_av x)) ls h) b = Some None.
Proof. induction ls as [|x ls IH]; intros h E; [exact E|]. cbn [fold_left]. apply IH. do 3 apply release_dead. exact E. Qed.

Lemma fold_reset_dead {F} (b : nat) (ls : list (hslot F)) : forall h l x, nth_error h b = Some l -> In x ls -> In b (buffers x) ->
  nth_error (fold_left (fun (h : heap F) x => release (release (release h (hs_range x)) (hs_rs x)) (hs_av x)) ls h) b = Some None.
Proof.
  induction ls as [|y ls IH]; intros h l x E I B; [destruct I|]. cbn [fold_left]. destruct I as [->|I].
  - apply fold_dead. exact (released_dead h x b l E B).
  - assert (D : exists l', nth_error (release (release (release h (hs_range y)) (hs_rs y)) (hs_av y)) b = Some l').
    { assert (LL : length (release (release (release h (hs_range y)) (hs_rs y)) (hs_av y)) = length h).
      { assert (RL : forall (h : heap F) v, length (release h v) = length h) by (intros h' [a|]; cbn; [apply release1_len|reflexivity]). rewrite !RL. reflexivity. }
      match goal with |- exists l', ?t = Some l' => destruct t as [l'|] eqn:X end; [eauto|]. apply nth_error_None in X. rewrite LL in X. apply nth_error_None in X. congruence. }
    destruct D as (l' & D). exact (IH _ l' x D I B).
Qed.
(** so once the cache is reset, or the next insertion overwrites the original, the copy's curves dangle *)
Theorem C05_copy_dangles {F} {N : Num F} (junk : nat -> F * F) ops hw i src x h' :
  hrun junk calculate_DataPoint ops hworld0 = Ok hw -> nth_error (hw_slots hw) i = Some src -> ~ blank src ->
  hcopy hslot0 src (hw_heap hw) = Ok (x, h') ->
  let hw' := mkHW h' (hw_slots hw) (hw_index hw) (hw_default hw) (hw_junk hw) in
  (forall s e, In s [hs_range_spline x; hs_rs_spline x; hs_av_spline x] -> heval (hw_heap (hreset hw')) s e = UB DanglingPointer) /\
  (forall p t c hw'', hadd junk calculate_DataPoint p t c hw' = Ok hw'' -> hw_junk hw'' <> hw_junk hw' -> hw_index hw'' = S i ->
     forall s e, In s [hs_range_spline x; hs_rs_spline x; hs_av_spline x] -> heval (hw_heap hw'') s e = UB DanglingPointer).
Proof.
  intros E NI NB C. cbv zeta.
  destruct (C05_self_contained junk ops hw E) as (LEN & SC & _). destruct (SC i src NI) as [B|B]; [contradiction|].
  destruct (C05_copy_aliases (hw_heap hw) src B) as (x' & h2 & C' & E1 & E2 & E3 & B' & _). rewrite C in C'. injection C' as <- <-.
  assert (AT : forall s, In s [hs_range_spline x; hs_rs_spline x; hs_av_spline x] -> exists b c l, s = HBuilt b c /\ In b (buffers src) /\ nth_error h' b = Some (Some l)).
  { rewrite E1, E2, E3. destruct B' as ((b1 & l1 & c1 & V1 & S1 & N1) & (b2 & l2 & c2 & V2 & S2 & N2) & (b3 & l3 & c3 & V3 & S3 & N3)).
    unfold buffers. rewrite V1, V2, V3, S1, S2, S3.
    intros s [<-|[<-|[<-|[]]]]; do 3 eexists; (split; [reflexivity|split; [cbn; auto|eassumption]]). }
  split.
  - intros s e I. destruct (AT s I) as (b & c & l & -> & IB & NL). cbn [heval hreset hw_heap hw_slots].
    unfold block. rewrite (fold_reset_dead b (hw_slots hw) h' _ src NL (nth_error_In _ _ NI) IB). reflexivity.
  - intros p t c hw'' A NJ EI s e I. destruct (AT s I) as (b & cc & l & -> & IB & NL). cbn [heval].
    unfold hadd in A. cbn [hw_slots hw_index hw_heap hw_default hw_junk] in A.
    destruct (find_hslot _ (hw_slots hw)); [injection A as <-; cbn in NJ; lia|].
    apply bind_ok in A. destruct A as ([src' h3] & HC & A).
    set (k := if Nat.eqb (hw_index hw) (length (hw_slots hw)) then 0%nat else hw_index hw) in A. destruct (nth_error (hw_slots hw) k) as [dst|] eqn:ND; [|discriminate].
    cbn [hmove] in A. apply bind_ok in A. destruct A as (s1 & _ & A). apply bind_ok in A. destruct A as (s2 & _ & A). apply bind_ok in A. destruct A as (s3 & _ & A).
    injection A as <-. cbn [hw_heap hw_index] in *. injection EI as EI. rewrite EI in ND. rewrite NI in ND. injection ND as <-.
    unfold hcalc in HC. apply bind_ok in HC. destruct HC as (d & _ & HC). injection HC as _ <-.
    unfold block. rewrite (released_dead _ src b (Some l)); [reflexivity| |exact IB]. apply live_app. exact NL.
Qed.
Print Assumptions C05_copy_dangles.
Example C05_copy_case : exists hw i src x h', hrun junk0 calculate_DataPoint [OpGet (proton 10) (water 1) conf; OpGet (carbon 10) (water 1) conf] hworld0 = Ok hw /\
  nth_error (hw_slots hw) i = Some src /\ ~ blank src /\ hcopy hslot0 src (hw_heap hw) = Ok (x, h') /\
  (exists v, heval h' (hs_range_spline x) 50 = Ok v).
Proof.
  destruct C05_case as (hw & i & src & E & NI & NB). exists hw, i, src.
  destruct (C05_self_contained junk0 _ hw E) as (_ & SC & _). destruct (SC i src NI) as [B|B]; [contradiction|].
  destruct (C05_copy_aliases (hw_heap hw) src B) as (x & h' & C & E1 & _ & _ & _ & _ & EV). exists x, h'. do 4 (split; [assumption|]).
  rewrite EV by (cbn; auto). rewrite E1.
  assert (P : Forall physical [OpGet (proton 10) (water 1) conf; OpGet (carbon 10) (water 1) conf]) by (repeat constructor; cbn; try lra; try lia).
  destruct (C05_defined junk0 _ P) as (hw2 & E2 & D).
  rewrite E in E2. injection E2 as <-. destruct (D i src NI) as [B2|[_ D2]]; [contradiction|]. apply (D2 (hs_range_spline src) 50). cbn. auto.
Qed.
