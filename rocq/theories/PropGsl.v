(** * C70: the build with GSL_INTERPOLATION *)
From Coq Require Import Reals ZArith Lia Lra List Bool.
From Verif Require Import Num NumR Structures EnergyTable Spline Storage BoundsAny GridProofs PropGrid Gsl.
Import ListNotations.

Section Gen.
  Context {F : Type} {N : Num F}.
  Variables gsl_eval gsl_eval_deriv : list F -> list F -> F -> F.
  Variable calc : Projectile F -> Material F -> Config F -> outcome (DataPoint F).

  (** ** What is said of the memory *)
  Definition holds (h : heap F) (n : nat) : Prop := exists c, In (n, c) (h_live h).
  (** addresses given out so far are below the next one, and none is held twice *)
  Definition sane (h : heap F) : Prop :=
    (forall n, holds h n -> (n < h_next h)%nat) /\ NoDup (map fst (h_live h)).
  (** nothing can be read at the pointer: it is null or its object was freed *)
  Definition gone (h : heap F) (p : gptr) : Prop :=
    p = GNull \/ exists n, p = GAt n /\ (n < h_next h)%nat /\ ~ holds h n.
  Definition is_ub {A} (o : outcome A) : Prop := exists why, o = UB why.

  (** the states of the library after calls of Add, Get and Reset that returned *)
  Inductive reached (left : gptr) : worldG F -> Prop :=
  | r_start : reached left worldG0
  | r_add p t c w w' : reached left w -> add_G left calc p t c w = Ok w' -> reached left w'
  | r_get p t c w d w' : reached left w -> get_G left calc p t c w = Ok (d, w') -> reached left w'
  | r_reset w w' : reached left w -> reset_G w = Ok w' -> reached left w'.

  Lemma find_none h n : ~ holds h n -> h_find h n = None.
  Proof.
    unfold holds, h_find. destruct (find _ _) as [[m c]|] eqn:E; [|reflexivity].
    intros H. apply find_some in E as [E1 E2]. cbn in E2. apply Nat.eqb_eq in E2. subst.
    exfalso. apply H. exists c. exact E1.
  Qed.

  Lemma use_gone g i x h : gone h (ig_acc i) -> is_ub (ig_use g i x h).
  Proof.
    intros [E | (n & E & _ & L)]; unfold ig_use, h_read; rewrite E.
    - exists NullDeref. reflexivity.
    - rewrite (find_none _ _ L). exists DanglingPointer. reflexivity.
  Qed.

  (** *** An interpolator made and destroyed leaves the memory as it was *)
  Definition later (h : heap F) : heap F := mkHeap (S (S (h_next h))) (h_live h).

  Lemma sane_later h : sane h -> sane (later h).
  Proof.
    intros [A B]. split; [|exact B]. intros n Hn. apply A in Hn. cbn. lia.
  Qed.

  Lemma filter_out (l : list (nat * cell F)) n : (forall c, ~ In (n, c) l) ->
    filter (fun c => negb (Nat.eqb (fst c) n)) l = l.
  Proof.
    induction l as [|[m c] l IH]; intros H; [reflexivity|]. cbn [filter fst].
    destruct (Nat.eqb_spec m n) as [->|D]; cbn [negb].
    - exfalso. apply (H c). left. reflexivity.
    - rewrite IH; [reflexivity|]. intros c' K. apply (H c'). right. exact K.
  Qed.

  (** what the constructor makes *)
  Definition made (t : EnergyTable F) (y : list F) (h : heap F) (i : InterpolatorGSL F) (h1 : heap F) : Prop :=
    (3 <= length y <= length (et_values t))%nat /\
    aget (et_values t) 0 = Ok (ig_min i) /\
    aget (et_values t) (Z.of_nat (length y) - 1) = Ok (ig_max i) /\
    ig_acc i = GAt (h_next h) /\ ig_spline i = GAt (S (h_next h)) /\
    h1 = mkHeap (S (S (h_next h)))
           ((S (h_next h), CSpline (firstn (length y) (et_values t)) y) :: (h_next h, CAccel) :: h_live h).

  Lemma make_made t y h i h1 : ig_make t y h = Ok (i, h1) -> made t y h i h1.
  Proof.
    unfold ig_make, made. cbn [h_alloc h_next h_live].
    destruct (Nat.ltb_spec (length y) 3) as [|L1]; [discriminate|].
    destruct (Nat.ltb_spec (length (et_values t)) (length y)) as [|L2]; [discriminate|].
    destruct (aget (et_values t) 0) as [a|] eqn:E1; cbn [bind]; [|discriminate].
    destruct (aget (et_values t) (Z.of_nat (length y) - 1)) as [b|] eqn:E2; cbn [bind]; [|discriminate].
    intros H. injection H as <- <-. cbn [ig_min ig_max ig_acc ig_spline].
    split; [lia|]. split; [reflexivity|]. split; [reflexivity|]. split; [reflexivity|]. split; reflexivity.
  Qed.

  Lemma made_use t y h i h1 g x : made t y h i h1 ->
    ig_use g i x h1 = Ok (g (firstn (length y) (et_values t)) y (ig_clamp i x)).
  Proof.
    intros (_ & _ & _ & E1 & E2 & ->). unfold ig_use, h_read. rewrite E1, E2. unfold h_find. cbn [h_live find fst].
    replace (Nat.eqb (S (h_next h)) (h_next h)) with false by (symmetry; apply Nat.eqb_neq; lia).
    rewrite !Nat.eqb_refl. reflexivity.
  Qed.

  Lemma made_destroy t y h i h1 : sane h -> made t y h i h1 -> ig_destroy i h1 = Ok (later h).
  Proof.
    intros [A _] (_ & _ & _ & E1 & E2 & ->). unfold ig_destroy, h_free. rewrite E1, E2.
    assert (U : forall m c, (h_next h <= m)%nat -> ~ In (m, c) (h_live h)).
    { intros m c Hm K. assert (holds h m) by (exists c; exact K). apply A in H. lia. }
    unfold h_find. cbn [h_live h_next find fst filter].
    replace (Nat.eqb (S (h_next h)) (h_next h)) with false by (symmetry; apply Nat.eqb_neq; lia).
    rewrite !Nat.eqb_refl. cbn [option_map negb bind h_live h_next].
    rewrite (filter_out (h_live h)); [|intros c; apply U; lia].
    cbn [find fst filter]. rewrite !Nat.eqb_refl. cbn [option_map negb].
    rewrite (filter_out (h_live h)); [|intros c; apply U; lia]. reflexivity.
  Qed.

  Lemma gone_made t y h i h1 : sane h -> made t y h i h1 -> gone (later h) (ig_acc i) /\ gone (later h) (ig_spline i).
  Proof.
    intros [A _] (_ & _ & _ & E1 & E2 & _). rewrite E1, E2.
    split; right; eexists; (split; [reflexivity|]); cbn [later h_next]; (split; [lia|]); intros K; apply A in K; lia.
  Qed.

  Lemma gone_later h p : gone h p -> gone (later h) p.
  Proof.
    intros [E | (n & E & L & K)]; [left; exact E | right]. exists n. split; [exact E|]. split; [cbn; lia | exact K].
  Qed.

  (** *** The storage *)
  Definition lost (h : heap F) (i : InterpolatorGSL F) : Prop := gone h (ig_acc i) /\ gone h (ig_spline i).
  Definition lost_point (h : heap F) (d : PointG F) : Prop := lost h (pg_range d) /\ lost h (pg_rs d) /\ lost h (pg_av d).
  Definition lost_world (w : worldG F) : Prop := sane (wg_heap w) /\ forall d, In d (wg_slots w) -> lost_point (wg_heap w) d.

  Lemma lost_later h d : lost_point h d -> lost_point (later h) d.
  Proof. intros ((A & B) & (C & D) & (E & G)). repeat split; apply gone_later; assumption. Qed.

  Lemma in_set l i (d e : PointG F) : In e (set_slotG l i d) -> e = d \/ In e l.
  Proof.
    revert i. induction l as [|a l IH]; intros [|i]; cbn [set_slotG In]; intros H; auto.
    - destruct H as [->|H]; auto.
    - destruct H as [->|H]; auto. apply IH in H as [->|H]; auto.
  Qed.

  Lemma nth_set l i (d : PointG F) : (i < length l)%nat -> nth_error (set_slotG l i d) i = Some d.
  Proof.
    revert i. induction l as [|a l IH]; intros [|i] H; cbn [set_slotG nth_error length] in *; try lia; [reflexivity|].
    apply IH. lia.
  Qed.

  Lemma destroy_null d h : pg_destroy (mkPG d (ig_default GNull) (ig_default GNull) (ig_default GNull)) h = Ok h.
  Proof. reflexivity. Qed.

  Lemma destroy_indet d h :
    pg_destroy (mkPG d (ig_default GIndet) (ig_default GIndet) (ig_default GIndet)) h = UB Uninitialised.
  Proof. reflexivity. Qed.

  (** what Add does when it returns, the pointers of new objects being null *)
  Lemma add_inv p t c w w' : sane (wg_heap w) -> add_G GNull calc p t c w = Ok w' ->
    w' = w \/
    (exists d i1 i2 i3 k, calc p t c = Ok d /\ (k < length (wg_slots w))%nat /\
      w' = mkWG (set_slotG (wg_slots w) k (mkPG d i1 i2 i3)) (S k) (later (later (later (wg_heap w)))) /\
      lost_point (wg_heap w') (mkPG d i1 i2 i3) /\
      ig_acc i1 <> GNull).
  Proof.
    intros Sw. unfold add_G. destruct (find_slotG _ _) as [k|].
    { rewrite destroy_null. cbn [bind]. intros H. injection H as <-. left. destruct w; reflexivity. }
    destruct (calc p t c) as [d|] eqn:Ec; cbn [bind]; [|discriminate].
    set (k := if Nat.eqb _ _ then _ else _). destruct (Nat.ltb_spec k (length (wg_slots w))) as [L|]; [|discriminate].
    rewrite destroy_null. cbn [bind].
    destruct (ig_make energy_table (dp_range d) _) as [[i1 h1]|] eqn:M1; cbn [bind]; [|discriminate].
    apply make_made in M1. rewrite (made_destroy _ _ _ _ _ Sw M1). cbn [bind].
    pose proof (sane_later _ Sw) as S1.
    destruct (ig_make energy_table (dp_rs d) _) as [[i2 h2]|] eqn:M2; cbn [bind]; [|discriminate].
    apply make_made in M2. rewrite (made_destroy _ _ _ _ _ S1 M2). cbn [bind].
    pose proof (sane_later _ S1) as S2.
    destruct (ig_make energy_table (dp_av d) _) as [[i3 h3]|] eqn:M3; cbn [bind]; [|discriminate].
    apply make_made in M3. rewrite (made_destroy _ _ _ _ _ S2 M3). cbn [bind].
    rewrite destroy_null. cbn [bind]. intros H. injection H as <-. right.
    exists d, i1, i2, i3, k. split; [reflexivity|]. split; [exact L|]. split; [reflexivity|]. cbn [wg_heap].
    destruct (gone_made _ _ _ _ _ Sw M1), (gone_made _ _ _ _ _ S1 M2), (gone_made _ _ _ _ _ S2 M3).
    split.
    - unfold lost_point, lost. cbn [pg_range pg_rs pg_av].
      split; [|split]; split; repeat first [assumption | apply gone_later].
    - destruct M1 as (_ & _ & _ & E & _). rewrite E. discriminate.
  Qed.

  Lemma add_lost p t c w w' : lost_world w -> add_G GNull calc p t c w = Ok w' -> lost_world w'.
  Proof.
    intros [Sw Lw] H. apply add_inv in H; [|exact Sw].
    destruct H as [-> | (d & i1 & i2 & i3 & k & _ & _ & E & G & _)]; [split; assumption|].
    subst w'. cbn [wg_heap] in *. split; cbn [wg_heap wg_slots].
    - repeat apply sane_later. exact Sw.
    - intros e He. apply in_set in He as [->|He]; [exact G|]. repeat apply lost_later. apply Lw. exact He.
  Qed.

  Lemma get_inv left p t c w d w' : get_G left calc p t c w = Ok (d, w') ->
    In d (wg_slots w') /\ (w' = w \/ add_G left calc p t c w = Ok w').
  Proof.
    unfold get_G. destruct (find_slotG _ _) as [k|].
    - destruct (nth_error _ _) eqn:E; [|discriminate]. intros H. injection H as <- <-. apply nth_error_In in E. auto.
    - destruct (add_G _ _ _ _ _ _) as [w1|]; cbn [bind]; [|discriminate].
      destruct (wg_index w1) as [|k]; [discriminate|]. destruct (nth_error _ _) eqn:E; [|discriminate].
      intros H. injection H as <- <-. apply nth_error_In in E. auto.
  Qed.

  Lemma start_lost : lost_world worldG0.
  Proof.
    split.
    - split; [intros n [c []] | constructor].
    - intros d Hd. cbn [worldG0 wg_slots] in Hd. apply repeat_spec in Hd. subst d.
      repeat split; left; reflexivity.
  Qed.

  Lemma destroy_gone_at h n : ~ holds h n -> h_free (GAt n) h = UB DanglingPointer.
  Proof. intros L. unfold h_free. rewrite (find_none _ _ L). reflexivity. Qed.

  Lemma free_gone h p : gone h p -> h_free p h = Ok h \/ h_free p h = UB DanglingPointer.
  Proof.
    intros [-> | (n & -> & _ & L)]; [left; reflexivity | right; apply destroy_gone_at; exact L].
  Qed.

  Lemma ig_destroy_lost h i : lost h i -> ig_destroy i h = Ok h \/ ig_destroy i h = UB DanglingPointer.
  Proof.
    intros [A B]. unfold ig_destroy. destruct (free_gone _ _ A) as [-> | ->]; cbn [bind]; [apply free_gone; exact B | right; reflexivity].
  Qed.

  Lemma pg_destroy_lost h d : lost_point h d -> pg_destroy d h = Ok h \/ pg_destroy d h = UB DanglingPointer.
  Proof.
    intros (A & B & C). unfold pg_destroy.
    destruct (ig_destroy_lost _ _ C) as [-> | ->]; cbn [bind]; [|right; reflexivity].
    destruct (ig_destroy_lost _ _ B) as [-> | ->]; cbn [bind]; [|right; reflexivity].
    apply ig_destroy_lost. exact A.
  Qed.

  Lemma destroy_all_lost h l : (forall e, In e l -> lost_point h e) -> destroy_all l h = Ok h \/ destroy_all l h = UB DanglingPointer.
  Proof.
    induction l as [|e l IH]; intros A; [left; reflexivity|]. cbn [destroy_all].
    destruct (pg_destroy_lost _ _ (A e (or_introl eq_refl))) as [-> | ->]; cbn [bind]; [|right; reflexivity].
    apply IH. intros e' He'. apply A. right. exact He'.
  Qed.

  Lemma reset_inv w w' : lost_world w -> reset_G w = Ok w' -> w' = mkWG (repeat blankG max_storage_data) 0 (wg_heap w).
  Proof.
    intros [_ L]. unfold reset_G. destruct (destroy_all_lost _ _ L) as [-> | ->]; cbn [bind]; [|discriminate].
    intros H. injection H as <-. reflexivity.
  Qed.

  Lemma reset_lost w w' : lost_world w -> reset_G w = Ok w' -> lost_world w'.
  Proof.
    intros L H. rewrite (reset_inv _ _ L H). destruct L as [Sw _]. split; [exact Sw|]. cbn [wg_slots wg_heap].
    intros d Hd. apply repeat_spec in Hd. subst d. repeat split; left; reflexivity.
  Qed.

  Lemma reached_lost w : reached GNull w -> lost_world w.
  Proof.
    induction 1 as [|p t c w w' _ IH H|p t c w d w' _ IH H|w w' _ IH H];
      [apply start_lost | exact (add_lost _ _ _ _ _ IH H)| | exact (reset_lost _ _ IH H)].
    apply get_inv in H as [_ [->|H]]; [exact IH | exact (add_lost _ _ _ _ _ IH H)].
  Qed.

  (** ** Add destroys a DataPoint whose pointers were never set *)
  Theorem C70_add_indeterminate p t c (w : worldG F) : is_ub (add_G GIndet calc p t c w).
  Proof.
    unfold add_G. destruct (find_slotG _ _).
    - rewrite destroy_indet. eexists. reflexivity.
    - destruct (calc p t c) as [d|why]; cbn [bind]; [|eexists; reflexivity].
      destruct (_ <? _)%nat; [|eexists; reflexivity]. rewrite destroy_indet. eexists. reflexivity.
  Qed.

  (** the only state ever reached is the first one: nothing is ever stored *)
  Theorem C70_never_stores w : reached GIndet w -> w = worldG0.
  Proof.
    induction 1 as [|p t c w w' _ IH H|p t c w d w' _ IH H|w w' _ IH H]; [reflexivity| | |].
    - destruct (C70_add_indeterminate p t c w) as [why E]. rewrite E in H. discriminate.
    - apply get_inv in H as [_ [->|H]]; [exact IH|].
      destruct (C70_add_indeterminate p t c w) as [why E]. rewrite E in H. discriminate.
    - subst w. apply reset_inv in H; [exact H | apply start_lost].
  Qed.

  (** ** Even if the memory of those objects happens to be zero, the splines stored are already freed *)
  Theorem C70_stored_dangles w d : reached GNull w -> In d (wg_slots w) ->
    forall x,
    is_ub (ig_eval gsl_eval (pg_range d) x (wg_heap w)) /\ is_ub (ig_derivative gsl_eval_deriv (pg_range d) x (wg_heap w)) /\
    is_ub (ig_eval gsl_eval (pg_rs d) x (wg_heap w)) /\ is_ub (ig_derivative gsl_eval_deriv (pg_rs d) x (wg_heap w)) /\
    is_ub (ig_eval gsl_eval (pg_av d) x (wg_heap w)) /\ is_ub (ig_derivative gsl_eval_deriv (pg_av d) x (wg_heap w)).
  Proof.
    intros H Hd x. apply reached_lost in H as [_ L]. destruct (L d Hd) as ((A & _) & (B & _) & (C & _)).
    unfold ig_eval, ig_derivative.
    split; [|split; [|split; [|split; [|split]]]]; apply use_gone; assumption.
  Qed.

  (** so no call of range returns, whatever was called before and whatever it is asked for *)
  Theorem C70_no_range left w : left = GIndet \/ left = GNull -> reached left w ->
    forall p t c, is_ub (range_G gsl_eval left calc p t c w).
  Proof.
    intros Hl H p t c. unfold range_G.
    destruct (get_G left calc p t c w) as [[d w']|why] eqn:E; cbn [bind]; [|eexists; reflexivity].
    assert (R' : reached GNull w').
    { destruct Hl as [-> | ->].
      - assert (K : reached GIndet w') by (eapply r_get; [exact H | exact E]).
        apply C70_never_stores in K. rewrite K. constructor.
      - eapply r_get; [exact H | exact E]. }
    apply get_inv in E as [Hd _].
    destruct (C70_stored_dangles w' d R' Hd (pT p)) as [[why K] _]. rewrite K. exists why. reflexivity.
  Qed.

  (** ** and the program cannot end: the storage frees them again *)
  Lemma pg_destroy_bad h d : lost_point h d -> ig_acc (pg_range d) <> GNull -> pg_destroy d h = UB DanglingPointer.
  Proof.
    intros (A & B & C) Nn. unfold pg_destroy.
    destruct (ig_destroy_lost _ _ C) as [-> | ->]; cbn [bind]; [|reflexivity].
    destruct (ig_destroy_lost _ _ B) as [-> | ->]; cbn [bind]; [|reflexivity].
    unfold ig_destroy. destruct A as [[E | (n & E & _ & L)] _]; [contradiction|].
    rewrite E, (destroy_gone_at _ _ L). reflexivity.
  Qed.

  Lemma destroy_all_bad h l d : (forall e, In e l -> lost_point h e) -> In d l -> ig_acc (pg_range d) <> GNull ->
    destroy_all l h = UB DanglingPointer.
  Proof.
    induction l as [|e l IH]; intros A Hd Nn; [destruct Hd|]. cbn [destroy_all].
    destruct Hd as [<-|Hd].
    - rewrite (pg_destroy_bad _ _ (A e (or_introl eq_refl)) Nn). reflexivity.
    - destruct (pg_destroy_lost _ _ (A e (or_introl eq_refl))) as [-> | ->]; cbn [bind]; [|reflexivity].
      apply IH; [intros e' He'; apply A; right; exact He' | exact Hd | exact Nn].
  Qed.

  (** some slot holds an address once anything was stored *)
  Definition holder (w : worldG F) : Prop := exists d, In d (wg_slots w) /\ ig_acc (pg_range d) <> GNull.

  Lemma add_holder p t c w w' : sane (wg_heap w) -> add_G GNull calc p t c w = Ok w' -> w' = w \/ holder w'.
  Proof.
    intros Sw E. apply add_inv in E; [|exact Sw].
    destruct E as [-> | (d & i1 & i2 & i3 & k & _ & Lk & E & _ & Nn)]; [left; reflexivity | right].
    exists (mkPG d i1 i2 i3). split; [|exact Nn].
    rewrite E. cbn [wg_slots]. apply nth_error_In with (n := k). apply nth_set. exact Lk.
  Qed.

  Lemma reached_holder w : reached GNull w -> w = worldG0 \/ holder w.
  Proof.
    induction 1 as [|p t c w w' H IH E|p t c w d w' H IH E|w w' H IH E]; [left; reflexivity| | |].
    - apply reached_lost in H as [Sw _]. destruct (add_holder _ _ _ _ _ Sw E) as [-> | K]; auto.
    - apply reached_lost in H as [Sw _]. apply get_inv in E as [_ [-> | E]]; [exact IH|].
      destruct (add_holder _ _ _ _ _ Sw E) as [-> | K]; auto.
    - apply reached_lost in H. destruct IH as [-> | (d & Hd & Nn)].
      + left. exact (reset_inv _ _ H E).
      + exfalso. destruct H as [_ L]. unfold reset_G in E. rewrite (destroy_all_bad _ _ _ L Hd Nn) in E. discriminate.
  Qed.

  Theorem C70_end w : reached GNull w -> w <> worldG0 ->
    destroy_all (wg_slots w) (wg_heap w) = UB DanglingPointer /\ reset_G w = UB DanglingPointer.
  Proof.
    intros H D. destruct (reached_holder _ H) as [->|(d & Hd & Nn)]; [contradiction|].
    apply reached_lost in H as [_ L]. pose proof (destroy_all_bad _ _ _ L Hd Nn) as K. split; [exact K|].
    unfold reset_G. rewrite K. reflexivity.
  Qed.

  (** *** Add does return then *)
  Lemma make_ok y h : length y = 600%nat -> exists i h1, ig_make energy_table y h = Ok (i, h1).
  Proof.
    intros L. pose proof (any_grid_length (F := F)) as G. unfold ig_make. cbn [h_alloc].
    destruct (Nat.ltb_spec (length y) 3) as [K|_]; [lia|].
    destruct (Nat.ltb_spec (length (et_values energy_table)) (length y)) as [K|_]; [lia|].
    destruct (proj2 (aget_in_bounds (et_values energy_table) 0)) as [a ->]; [rewrite G; lia|]. cbn [bind].
    destruct (proj2 (aget_in_bounds (et_values energy_table) (Z.of_nat (length y) - 1))) as [b ->]; [rewrite G; lia|]. cbn [bind].
    eexists _, _. reflexivity.
  Qed.

  Theorem C70_add_zeroed p t c d : calc p t c = Ok d ->
    length (dp_range d) = 600%nat -> length (dp_rs d) = 600%nat -> length (dp_av d) = 600%nat ->
    dp_eqb DataPoint0 (mkDP p t c [] [] [] None None None) = false ->
    exists w, add_G GNull calc p t c worldG0 = Ok w /\ reached GNull w /\ w <> worldG0 /\ h_live (wg_heap w) = [] /\
      exists e, nth_error (wg_slots w) 0 = Some e /\ pg_data e = d.
  Proof.
    intros Ec L1 L2 L3 Nk.
    assert (E : exists w, add_G GNull calc p t c worldG0 = Ok w /\ wg_index w = 1%nat /\ h_live (wg_heap w) = [] /\
      exists e, nth_error (wg_slots w) 0 = Some e /\ pg_data e = d).
    { assert (Fn : forall n, find_slotG (fun e => dp_eqb e (mkDP p t c [] [] [] None None None)) (repeat blankG n) = None).
      { induction n as [|n IH]; [reflexivity|]. cbn [repeat find_slotG blankG pg_data]. rewrite Nk, IH. reflexivity. }
      destruct start_lost as [Sw _].
      unfold add_G. cbn [pg_data]. cbn [worldG0 wg_slots wg_index wg_heap] in *. rewrite Fn, Ec, repeat_length. cbn [bind].
      replace (Nat.eqb 0 max_storage_data) with false by reflexivity. replace (0 <? max_storage_data)%nat with true by reflexivity.
      rewrite destroy_null. cbn [bind].
      destruct (make_ok _ heap0 L1) as (i1 & h1 & M1). rewrite M1. cbn [bind]. apply make_made in M1.
      rewrite (made_destroy _ _ _ _ _ Sw M1). cbn [bind]. pose proof (sane_later _ Sw) as S1.
      destruct (make_ok _ (later heap0) L2) as (i2 & h2 & M2). rewrite M2. cbn [bind]. apply make_made in M2.
      rewrite (made_destroy _ _ _ _ _ S1 M2). cbn [bind]. pose proof (sane_later _ S1) as S2.
      destruct (make_ok _ (later (later heap0)) L3) as (i3 & h3 & M3). rewrite M3. cbn [bind]. apply make_made in M3.
      rewrite (made_destroy _ _ _ _ _ S2 M3). cbn [bind]. rewrite destroy_null. cbn [bind].
      eexists. split; [reflexivity|]. split; [reflexivity|]. split; [reflexivity|].
      eexists. split; [apply nth_set; rewrite repeat_length; vm_compute; lia | reflexivity]. }
    destruct E as (w & E & Ei & El & Ex). exists w. split; [exact E|]. split; [exact (r_add _ _ _ _ _ _ (r_start _) E)|].
    split; [intros ->; discriminate Ei|]. split; [exact El | exact Ex].
  Qed.

  (** ** Without STORE_SPLINES the interpolator lives as long as it is used, and everything allocated is freed *)
  Theorem C70_temporary (t : EnergyTable F) y x h lo hi : sane h ->
    (3 <= length y <= length (et_values t))%nat ->
    nth_error (et_values t) 0 = Some lo -> nth_error (et_values t) (length y - 1) = Some hi ->
    exists h', h_live h' = h_live h /\ sane h' /\
    with_interpolator t y (fun i => ig_eval gsl_eval i x) h =
      Ok (gsl_eval (firstn (length y) (et_values t)) y (let x := if (x <? lo)%num then lo else x in if (hi <? x)%num then hi else x), h') /\
    with_interpolator t y (fun i => ig_derivative gsl_eval_deriv i x) h =
      Ok (gsl_eval_deriv (firstn (length y) (et_values t)) y (let x := if (x <? lo)%num then lo else x in if (hi <? x)%num then hi else x), h').
  Proof.
    intros Sh L E1 E2.
    assert (A1 : aget (et_values t) 0 = Ok lo).
    { unfold aget. cbn. destruct (et_values t) as [|a l]; [discriminate|]. cbn in E1. injection E1 as ->. reflexivity. }
    assert (A2 : aget (et_values t) (Z.of_nat (length y) - 1) = Ok hi).
    { unfold aget. destruct (Z.ltb_spec (Z.of_nat (length y) - 1) 0); [lia|].
      replace (Z.to_nat (Z.of_nat (length y) - 1)) with (length y - 1)%nat by lia. rewrite E2. reflexivity. }
    assert (M : exists i h1, ig_make t y h = Ok (i, h1) /\ ig_min i = lo /\ ig_max i = hi).
    { unfold ig_make. cbn [h_alloc h_next h_live].
      destruct (Nat.ltb_spec (length y) 3); [lia|]. destruct (Nat.ltb_spec (length (et_values t)) (length y)); [lia|].
      rewrite A1. cbn [bind]. rewrite A2. cbn [bind]. eexists _, _. split; [reflexivity|]. split; reflexivity. }
    destruct M as (i & h1 & M & Ei & Ea). exists (later h). split; [reflexivity|]. split; [apply sane_later; exact Sh|].
    unfold with_interpolator. rewrite M. cbn [bind]. apply make_made in M.
    unfold ig_eval, ig_derivative. rewrite !(made_use _ _ _ _ _ _ _ M). cbn [bind].
    rewrite (made_destroy _ _ _ _ _ Sh M). cbn [bind]. unfold ig_clamp. rewrite Ei, Ea. split; reflexivity.
  Qed.

  (** *** fewer than three values: no spline *)
  Theorem C70_short (t : EnergyTable F) y h : (length y < 3)%nat -> is_ub (ig_make t y h).
  Proof.
    intros L. unfold ig_make. cbn [h_alloc]. destruct (Nat.ltb_spec (length y) 3); [|lia]. eexists. reflexivity.
  Qed.
End Gen.

(** ** Over the reals: the argument is moved to the nearest energy of the table, and a spline through its data gives the first and the last
    value beyond the ends *)
Section Real.
  Local Open Scope R_scope.
  Local Existing Instance NumR.
  Variable gsl_eval : list R -> list R -> R -> R.

  Theorem C70_clamped (t : EnergyTable R) y x h lo hi : sane h ->
    (3 <= length y <= length (et_values t))%nat ->
    nth_error (et_values t) 0 = Some lo -> nth_error (et_values t) (length y - 1) = Some hi -> lo <= hi ->
    exists h', h_live h' = h_live h /\
    with_interpolator t y (fun i => ig_eval gsl_eval i x) h =
      Ok (gsl_eval (firstn (length y) (et_values t)) y (Rmax lo (Rmin hi x)), h').
  Proof.
    intros Sh L E1 E2 Hlh. destruct (C70_temporary gsl_eval gsl_eval t y x h lo hi Sh L E1 E2) as (h' & A & _ & B & _).
    exists h'. split; [exact A|]. rewrite B. do 3 f_equal. cbn.
    unfold Rmax, Rmin. destruct (Rltb_spec x lo); [destruct (Rltb_spec hi lo) | destruct (Rltb_spec hi x)]; repeat destruct (Rle_dec _ _); lra.
  Qed.

  (** the range on its table, whose ends are 10^-3 and 10^7 up to the digits of ln 10 in the code *)
  Theorem C70_range (d : DataPoint R) T h : sane h -> length (dp_range d) = 600%nat ->
    exists h', h_live h' = h_live h /\
    range_T gsl_eval d T h =
      Ok (gsl_eval (et_values energy_table) (dp_range d) (Rmax (exp (LN10_ * -3)) (Rmin (exp (LN10_ * 7)) T)), h').
  Proof.
    intros Sh L. pose proof (any_grid_length (F := R)) as G.
    destruct (C18_grid 600 (-3) 7 ltac:(lia) ltac:(lra)) as (_ & E1 & E2 & _). unfold at_ in E1, E2.
    destruct C18_library as [K _]. rewrite <- K in E1, E2.
    destruct (C70_clamped energy_table (dp_range d) T h (exp (LN10_ * -3)) (exp (LN10_ * 7)) Sh) as (h' & A & B).
    - rewrite L, G. lia.
    - exact E1.
    - rewrite L. exact E2.
    - left. apply exp_increasing. pose proof LN10_pos. lra.
    - exists h'. split; [exact A|]. unfold range_T. rewrite B, L. rewrite firstn_all2; [reflexivity | rewrite G; apply le_n].
  Qed.

  Theorem C70_beyond (t : EnergyTable R) y h lo hi y0 yn : sane h ->
    (3 <= length y <= length (et_values t))%nat ->
    nth_error (et_values t) 0 = Some lo -> nth_error (et_values t) (length y - 1) = Some hi -> lo <= hi ->
    nth_error y 0 = Some y0 -> nth_error y (length y - 1) = Some yn ->
    (forall k a b, nth_error (firstn (length y) (et_values t)) k = Some a -> nth_error y k = Some b ->
       gsl_eval (firstn (length y) (et_values t)) y a = b) ->
    forall x, exists h', h_live h' = h_live h /\
    (x <= lo -> with_interpolator t y (fun i => ig_eval gsl_eval i x) h = Ok (y0, h')) /\
    (hi <= x -> with_interpolator t y (fun i => ig_eval gsl_eval i x) h = Ok (yn, h')).
  Proof.
    intros Sh L E1 E2 Hlh F1 F2 G x. destruct (C70_clamped t y x h lo hi Sh L E1 E2 Hlh) as (h' & A & B).
    exists h'. split; [exact A|]. rewrite B. split; intros Hx; do 2 f_equal.
    - replace (Rmax lo (Rmin hi x)) with lo by (unfold Rmax, Rmin; repeat destruct (Rle_dec _ _); lra).
      apply (G O); [|exact F1]. destruct (et_values t) as [|a l]; [discriminate|]. destruct y; [cbn in L; lia|]. exact E1.
    - replace (Rmax lo (Rmin hi x)) with hi by (unfold Rmax, Rmin; repeat destruct (Rle_dec _ _); lra).
      apply (G (length y - 1)%nat); [|exact F2].
      rewrite <- E2. clear - L. revert L. generalize (et_values t) as l. generalize (length y) as n. intros n l [L _].
      assert (K : (n - 1 < n)%nat) by lia. revert K. generalize (n - 1)%nat as k. clear L. revert l.
      induction n as [|n IH]; intros l k K; [lia|]. destruct l as [|a l]; [reflexivity|]. destruct k as [|k]; [reflexivity|].
      cbn. apply IH. lia.
  Qed.
End Real.

(** ** Cases *)
Section Cases.
  Local Open Scope R_scope.
  Local Existing Instance NumR.

  (** three values on the first three energies; the linear search of the value at a node stands for the spline *)
  Fixpoint look (xs ys : list R) (x : R) : R :=
    match xs, ys with
    | a :: xs, b :: ys => if Rltb a x then look xs ys x else b
    | _, _ => 0
    end.
  Definition grid3 : EnergyTable R := mkET 3 [1; 2; 4] 1.

  Example C70_beyond_case : exists h', h_live h' = h_live heap0 /\
    with_interpolator grid3 [5; 6; 9] (fun i => ig_eval look i 7) heap0 = Ok (9, h').
  Proof.
    assert (A : sane (@heap0 R)) by (split; [intros n [c []] | constructor]).
    destruct (C70_beyond look grid3 [5; 6; 9] heap0 1 4 5 9 A ltac:(cbn; lia) eq_refl eq_refl ltac:(lra) eq_refl eq_refl) with (x := 7)
      as (h' & B & _ & C).
    - intros [|[|[|k]]] a b Ha Hb; cbn in Ha, Hb; [| | |destruct k; discriminate];
        injection Ha as <-; injection Hb as <-; cbn; repeat (match goal with |- context [Rltb ?u ?v] => destruct (Rltb_spec u v) end; try lra).
    - exists h'. split; [exact B|]. apply C. lra.
  Qed.

  (** a range table of ones at an energy above the grid, one object being allocated by somebody else *)
  Example C70_range_case : exists h', h_live h' = [(0%nat, CAccel)] /\
    range_T look (mkDP Projectile0 Material0 Config0 (repeat 1 600) [] [] None None None) (exp (LN10_ * 7) + 1) (mkHeap 1 [(0%nat, CAccel)]) =
      Ok (look (et_values energy_table) (repeat 1 600) (exp (LN10_ * 7)), h').
  Proof.
    destruct (C70_range look (mkDP Projectile0 Material0 Config0 (repeat 1 600) [] [] None None None) (exp (LN10_ * 7) + 1)
      (mkHeap 1 [(0%nat, CAccel)])) as (h' & A & B).
    - split; [|repeat constructor; intros []]. intros n [c [K|[]]]. injection K as <- _. cbn. lia.
    - apply repeat_length.
    - assert (exp (LN10_ * -3) < exp (LN10_ * 7)) by (apply exp_increasing; pose proof LN10_pos; lra).
      rewrite Rmin_left, Rmax_right in B by lra. exists h'. split; [exact A|exact B].
  Qed.

  (** tables of zeros for carbon ions of any energy *)
  Definition zeros (p : Projectile R) (t : Material R) (c : Config R) : outcome (DataPoint R) :=
    Ok (mkDP p t c (repeat 0 600) (repeat 0 600) (repeat 0 600) None None None).

  Example C70_carbon_case : exists w,
    add_G GNull zeros (mkProj 12 6 6 100) Material0 Config0 worldG0 = Ok w /\ reached zeros GNull w /\
    is_ub (range_G look GNull zeros (mkProj 12 6 6 100) Material0 Config0 w) /\
    destroy_all (wg_slots w) (wg_heap w) = UB DanglingPointer.
  Proof.
    destruct (C70_add_zeroed zeros (mkProj 12 6 6 100) Material0 Config0 _ eq_refl) as (w & A & B & C & _);
      [apply repeat_length | apply repeat_length | apply repeat_length | |].
    - unfold dp_eqb. cbn [dp_m dp_p dp_c DataPoint0]. replace (proj_eqb Projectile0 _) with false; [rewrite andb_false_r; reflexivity|].
      unfold proj_eqb. cbn [pA pZ pQ Projectile0]. numR. dec_norm. destruct (Reqb_spec 0 12); [lra | reflexivity].
    - exists w. split; [exact A|]. split; [exact B|]. split.
      + exact (C70_no_range look look zeros GNull w (or_intror eq_refl) B _ _ _).
      + exact (proj1 (C70_end zeros w B C)).
  Qed.
End Cases.

Print Assumptions C70_add_indeterminate.
Print Assumptions C70_never_stores.
Print Assumptions C70_stored_dangles.
Print Assumptions C70_no_range.
Print Assumptions C70_end.
Print Assumptions C70_add_zeroed.
Print Assumptions C70_temporary.
Print Assumptions C70_short.
Print Assumptions C70_clamped.
Print Assumptions C70_range.
Print Assumptions C70_beyond.
Print Assumptions C70_beyond_case.
Print Assumptions C70_carbon_case.
Print Assumptions C70_range_case.
