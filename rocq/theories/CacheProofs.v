(** * Proofs about the table cache (storage.cpp), for arbitrary arithmetic *)
From Coq Require Import ZArith List Bool Lia Arith.
From Verif Require Import Num Structures EnergyTable Spline Integrator Calculations Storage.
Import ListNotations.

(** ** Specification: histories and a FIFO queue *)
Section Spec.
  Context {F : Type} {N : Num F}.

  (** what a program can do to the cache: look up, insert, clear, change the default config *)
  Inductive op :=
  | OpGet (p : Projectile F) (t : Material F) (c : Config F)
  | OpAdd (p : Projectile F) (t : Material F) (c : Config F)
  | OpReset
  | OpConfig (c : Config F).

  Variable junk : nat -> F * F.
  Variable calc : Projectile F -> Material F -> Config F -> outcome (DataPoint F).

  Definition step (w : world F) (o : op) : outcome (world F) :=
    match o with
    | OpGet p t c => omap snd (data_get junk calc p t c w)
    | OpAdd p t c => data_add junk calc p t c w
    | OpReset => Ok (data_reset w)
    | OpConfig c => Ok (mkW (w_slots w) (w_index w) c (w_junk w))
    end.
  Definition run (h : list op) (w : world F) : outcome (world F) := ofold step h w.

  (** is the key present *)
  Definition present (p : Projectile F) (t : Material F) (c : Config F) (w : world F) : Prop :=
    exists e, In e (w_slots w) /\ key_match p t c e = true.

  (** number of insertions made by a history *)
  Definition is_miss (o : op) (w : world F) : bool :=
    match o with
    | OpGet p t c | OpAdd p t c => negb (existsb (key_match p t c) (w_slots w))
    | _ => false
    end.
  Fixpoint misses (h : list op) (w : world F) : nat :=
    match h with
    | [] => 0
    | o :: h' =>
        (if is_miss o w then 1 else 0) +
        match step w o with Ok w' => misses h' w' | UB _ => 0 end
    end.
  Definition no_reset (h : list op) : Prop := ~ In OpReset h.
End Spec.
Arguments op F : clear implicits.

Section Proofs.
  Context {F : Type} {N : Num F}.
  Variable junk : nat -> F * F.
  Variable calc : Projectile F -> Material F -> Config F -> outcome (DataPoint F).

  Notation DP0 := (DataPoint0 (F:=F)).
  Definition wf (w : world F) : Prop :=
    length (w_slots w) = 60%nat /\ (w_index w <= 60)%nat.
  (** the slot the next insertion writes *)
  Definition cursor (w : world F) : nat := if Nat.eqb (w_index w) 60 then 0 else w_index w.
  (** all slots, oldest first *)
  Definition queue (w : world F) : list (DataPoint F) :=
    skipn (cursor w) (w_slots w) ++ firstn (cursor w) (w_slots w).
  Definition rcalc (k : nat) p t c : outcome (DataPoint F) :=
    d <- calc p t c ;; with_splines junk k d.

  Lemma key_match_dp_eqb p t c (e : DataPoint F) :
    dp_eqb e (mkDP p t c [] [] [] None None None) = key_match p t c e.
  Proof.
    unfold dp_eqb, key_match; simpl.
    destruct (mat_eqb (dp_m e) t), (proj_eqb (dp_p e) p); reflexivity.
  Qed.

  Lemma find_slot_ext q1 q2 (l : list (DataPoint F)) :
    (forall e, q1 e = q2 e) -> find_slot q1 l = find_slot q2 l.
  Proof. intros H; induction l as [|e l IH]; simpl; [reflexivity|]. now rewrite H, IH. Qed.

  Lemma find_slot_some q (l : list (DataPoint F)) i :
    find_slot q l = Some i ->
    exists e, nth_error l i = Some e /\ q e = true /\
              forall j e', (j < i)%nat -> nth_error l j = Some e' -> q e' = false.
  Proof.
    revert i; induction l as [|e l IH]; simpl; intros i H; [discriminate|].
    destruct (q e) eqn:E.
    - inversion H; subst. exists e. repeat split; auto. intros; lia.
    - destruct (find_slot q l) as [k|]; simpl in H; [|discriminate].
      inversion H; subst. destruct (IH k eq_refl) as (e' & H1 & H2 & H3).
      exists e'. simpl. repeat split; auto.
      intros [|j] e'' Hj Hn; simpl in Hn; [congruence|]. apply (H3 j); [lia|assumption].
  Qed.

  Lemma find_slot_none q (l : list (DataPoint F)) :
    find_slot q l = None <-> forall e, In e l -> q e = false.
  Proof.
    induction l as [|e l IH]; simpl; [tauto|].
    destruct (q e) eqn:E.
    - split; [discriminate|]. intros H. rewrite (H e) in E; auto; discriminate.
    - destruct (find_slot q l); simpl.
      + split; [discriminate|]. intros H. assert (Some n = None) by (apply IH; auto). discriminate.
      + split; auto. intros _ x [->|Hx]; auto. now apply IH.
  Qed.

  Lemma find_slot_existsb q (l : list (DataPoint F)) :
    find_slot q l = None <-> existsb q l = false.
  Proof.
    rewrite find_slot_none. split.
    - intros H. destruct (existsb q l) eqn:E; auto. apply existsb_exists in E.
      destruct E as (x & Hx & Hq). now rewrite (H x Hx) in Hq.
    - intros H e He. destruct (q e) eqn:E; auto.
      assert (existsb q l = true) by (apply existsb_exists; eauto). congruence.
  Qed.

  Lemma set_slot_length (l : list (DataPoint F)) i d : length (set_slot l i d) = length l.
  Proof. revert i; induction l as [|x l IH]; intros [|i]; simpl; auto. Qed.

  Lemma set_slot_split (l : list (DataPoint F)) i d : (i < length l)%nat ->
    set_slot l i d = firstn i l ++ d :: skipn (S i) l.
  Proof.
    revert i; induction l as [|x l IH]; intros [|i] H; simpl in *; try lia; auto.
    rewrite IH by lia. reflexivity.
  Qed.

  Lemma set_slot_same (l : list (DataPoint F)) i d : (i < length l)%nat ->
    nth_error (set_slot l i d) i = Some d.
  Proof. revert i; induction l as [|x l IH]; intros [|i] H; simpl in *; try lia; auto. apply IH; lia. Qed.

  Lemma set_slot_other (l : list (DataPoint F)) i j d : i <> j ->
    nth_error (set_slot l i d) j = nth_error l j.
  Proof. revert i j; induction l as [|x l IH]; intros [|i] [|j] H; simpl; try lia; auto. Qed.

  Lemma wf_world0 : wf world0.
  Proof. split; simpl; [reflexivity | lia]. Qed.
  Lemma wf_reset w : wf (data_reset w).
  Proof. split; simpl; [reflexivity | lia]. Qed.

  Lemma cursor_lt w : wf w -> (cursor w < 60)%nat.
  Proof. intros [_ H]. unfold cursor. destruct (Nat.eqb_spec (w_index w) 60); lia. Qed.

  Lemma cursor_in w : wf w -> (cursor w < length (w_slots w))%nat.
  Proof. intros W. pose proof (cursor_lt w W). destruct W as [W1 _]. lia. Qed.

  (** *** One insertion *)
  Lemma add_present p t c w :
    existsb (key_match p t c) (w_slots w) = true -> data_add junk calc p t c w = Ok w.
  Proof.
    intros H. unfold data_add.
    rewrite (find_slot_ext _ _ (w_slots w) (key_match_dp_eqb p t c)).
    destruct (find_slot (key_match p t c) (w_slots w)) eqn:E; auto.
    apply find_slot_existsb in E. congruence.
  Qed.

  Lemma add_absent p t c w : wf w ->
    existsb (key_match p t c) (w_slots w) = false ->
    data_add junk calc p t c w =
    (d <- rcalc (w_junk w) p t c ;;
     Ok (mkW (set_slot (w_slots w) (cursor w) d) (S (cursor w)) (w_default w) (w_junk w + 3))).
  Proof.
    intros W H. unfold data_add, rcalc.
    rewrite (find_slot_ext _ _ (w_slots w) (key_match_dp_eqb p t c)).
    apply find_slot_existsb in H. rewrite H.
    destruct (calc p t c) as [d|]; simpl; auto.
    destruct (with_splines junk (w_junk w) d) as [d'|]; simpl; auto.
    pose proof (cursor_lt w W) as C. unfold cursor in *. destruct W as [W1 W2].
    rewrite W1.
    destruct (Nat.eqb (w_index w) 60).
    - reflexivity.
    - apply Nat.ltb_lt in C. rewrite C. reflexivity.
  Qed.

  Lemma get_present p t c w i :
    find_slot (key_match p t c) (w_slots w) = Some i -> data_get junk calc p t c w = Ok (i, w).
  Proof. intros H. unfold data_get. now rewrite H. Qed.

  Lemma get_absent p t c w : wf w ->
    existsb (key_match p t c) (w_slots w) = false ->
    data_get junk calc p t c w =
    (d <- rcalc (w_junk w) p t c ;;
     Ok (cursor w, mkW (set_slot (w_slots w) (cursor w) d) (S (cursor w)) (w_default w)
                       (w_junk w + 3))).
  Proof.
    intros W H. unfold data_get. rewrite (add_absent p t c w W H).
    apply find_slot_existsb in H. rewrite H.
    destruct (rcalc (w_junk w) p t c); reflexivity.
  Qed.

  (** an insertion written out *)
  Definition inserted (w : world F) (d : DataPoint F) : world F :=
    mkW (set_slot (w_slots w) (cursor w) d) (S (cursor w)) (w_default w) (w_junk w + 3).

  Lemma wf_inserted w d : wf w -> wf (inserted w d).
  Proof.
    intros W. pose proof (cursor_lt w W). destruct W as [W1 W2]. split; simpl.
    - now rewrite set_slot_length.
    - lia.
  Qed.

  Lemma queue_length w : wf w -> length (queue w) = 60%nat.
  Proof.
    intros W. pose proof (cursor_lt w W). destruct W as [W1 W2]. unfold queue.
    rewrite app_length, skipn_length, firstn_length. lia.
  Qed.

  Lemma skipn_hd {A} i (l : list A) : (i < length l)%nat ->
    exists x, skipn i l = x :: skipn (S i) l.
  Proof.
    revert i; induction l as [|y l IH]; intros [|i] H; simpl in *; try lia; eauto.
    apply IH. lia.
  Qed.

  (** the cache is a FIFO queue: inserting drops the oldest entry and appends the new one *)
  Lemma queue_inserted w d : wf w -> queue (inserted w d) = tl (queue w) ++ [d].
  Proof.
    intros W. pose proof (cursor_lt w W) as C. pose proof W as [W1 W2].
    unfold queue at 2. destruct (skipn_hd (cursor w) (w_slots w)) as [x Hx]; [lia|].
    rewrite Hx. cbn [tl app]. unfold queue.
    replace (cursor (inserted w d)) with (if Nat.eqb (S (cursor w)) 60 then 0%nat else S (cursor w))
      by reflexivity.
    change (w_slots (inserted w d)) with (set_slot (w_slots w) (cursor w) d).
    rewrite set_slot_split by lia.
    set (i := cursor w) in *.
    assert (L1 : length (firstn i (w_slots w)) = i) by (rewrite firstn_length; lia).
    destruct (Nat.eqb_spec (S i) 60) as [E|E].
    - assert (i = 59)%nat by lia. clear E. rewrite skipn_O, firstn_O, app_nil_r.
      assert (skipn (S i) (w_slots w) = []) as -> by (apply skipn_all2; lia).
      simpl. reflexivity.
    - rewrite skipn_app, firstn_app, L1.
      replace (S i - i)%nat with 1%nat by lia.
      rewrite (skipn_all2 (firstn i (w_slots w))) by lia.
      rewrite (firstn_all2 (firstn i (w_slots w))) by lia.
      simpl. rewrite <- app_assoc. reflexivity.
  Qed.

  (** *** Every step is the identity on slots, a clear, or an insertion *)
  Lemma step_cases w o w' : wf w -> step junk calc w o = Ok w' ->
    (is_miss o w = false /\ o <> OpReset /\ w_slots w' = w_slots w /\ w_index w' = w_index w
       /\ w_junk w' = w_junk w)
    \/ (is_miss o w = false /\ o = OpReset /\ w' = data_reset w)
    \/ (is_miss o w = true /\ exists p t c d, (o = OpGet p t c \/ o = OpAdd p t c) /\
          rcalc (w_junk w) p t c = Ok d /\
          existsb (key_match p t c) (w_slots w) = false /\ w' = inserted w d).
  Proof.
    intros W H. destruct o as [p t c|p t c| |c]; simpl in H.
    - simpl is_miss. destruct (existsb (key_match p t c) (w_slots w)) eqn:E; simpl.
      + left. destruct (find_slot (key_match p t c) (w_slots w)) eqn:E2.
        * rewrite (get_present _ _ _ _ _ E2) in H. simpl in H. inversion H; subst.
          repeat split; auto; discriminate.
        * apply find_slot_existsb in E2. congruence.
      + right; right. split; auto.
        rewrite (get_absent _ _ _ _ W E) in H.
        destruct (rcalc (w_junk w) p t c) as [d|] eqn:R; simpl in H; [|discriminate].
        inversion H; subst. exists p, t, c, d. auto.
    - simpl is_miss. destruct (existsb (key_match p t c) (w_slots w)) eqn:E; simpl.
      + left. rewrite (add_present _ _ _ _ E) in H. inversion H; subst.
        repeat split; auto; discriminate.
      + right; right. split; auto.
        rewrite (add_absent _ _ _ _ W E) in H.
        destruct (rcalc (w_junk w) p t c) as [d|] eqn:R; simpl in H; [|discriminate].
        inversion H; subst. exists p, t, c, d. auto.
    - right; left. inversion H; subst. auto.
    - left. inversion H; subst. simpl. repeat split; auto; discriminate.
  Qed.

  Lemma wf_step w o w' : wf w -> step junk calc w o = Ok w' -> wf w'.
  Proof.
    intros W H. destruct (step_cases w o w' W H) as [(_ & _ & E1 & E2 & _)|[(_ & _ & ->)|(_ & p & t & c & d & _ & _ & _ & ->)]].
    - unfold wf. rewrite E1, E2. exact W.
    - apply wf_reset.
    - now apply wf_inserted.
  Qed.

  Lemma run_cons o h w w' : run junk calc (o :: h) w = Ok w' ->
    exists w1, step junk calc w o = Ok w1 /\ run junk calc h w1 = Ok w'.
  Proof. unfold run; simpl. apply bind_ok. Qed.

  Lemma run_inv (I : world F -> Prop) :
    (forall w o w', wf w -> I w -> step junk calc w o = Ok w' -> I w') ->
    forall h w w', wf w -> I w -> run junk calc h w = Ok w' -> wf w' /\ I w'.
  Proof.
    intros S. induction h as [|o h IH]; intros w w' W J H.
    - unfold run in H; simpl in H. inversion H; subst. auto.
    - apply run_cons in H. destruct H as (w1 & H1 & H2).
      apply (IH w1); auto; [eapply wf_step; eauto | eapply S; eauto].
  Qed.

  Lemma run_wf h w w' : wf w -> run junk calc h w = Ok w' -> wf w'.
  Proof. intros W H. eapply (run_inv (fun _ => True)); eauto. Qed.

  (** *** Lookups are total and correct (C02) *)
  Lemma existsb_key_find p t c w :
    existsb (key_match p t c) (w_slots w) = true ->
    exists i, find_slot (key_match p t c) (w_slots w) = Some i.
  Proof.
    intros H. destruct (find_slot (key_match p t c) (w_slots w)) eqn:E; eauto.
    apply find_slot_existsb in E. congruence.
  Qed.

  Lemma get_spec w p t c : wf w ->
    (exists i e, data_get junk calc p t c w = Ok (i, w) /\ (i < 60)%nat /\
                 nth_error (w_slots w) i = Some e /\ key_match p t c e = true)
    \/ ((forall e, In e (w_slots w) -> key_match p t c e = false) /\
        ((exists why, rcalc (w_junk w) p t c = UB why /\ data_get junk calc p t c w = UB why)
         \/ (exists d, rcalc (w_junk w) p t c = Ok d /\
               data_get junk calc p t c w = Ok (cursor w, inserted w d) /\
               nth_error (w_slots (inserted w d)) (cursor w) = Some d))).
  Proof.
    intros W. destruct (existsb (key_match p t c) (w_slots w)) eqn:E.
    - left. destruct (existsb_key_find _ _ _ _ E) as [i Hi].
      destruct (find_slot_some _ _ _ Hi) as (e & H1 & H2 & _).
      exists i, e. repeat split; auto.
      + now apply get_present.
      + destruct W as [W1 _]. rewrite <- W1. apply nth_error_Some. congruence.
    - right. split.
      + intros e He. destruct (key_match p t c e) eqn:K; auto.
        assert (existsb (key_match p t c) (w_slots w) = true) by (apply existsb_exists; eauto).
        congruence.
      + rewrite (get_absent _ _ _ _ W E). destruct (rcalc (w_junk w) p t c) as [d|why] eqn:R; simpl.
        * right. exists d. repeat split; auto. apply set_slot_same. now apply cursor_in.
        * left. eauto.
  Qed.

  (** looking up again finds the same slot *)
  Hypothesis calc_key : forall p t c d, calc p t c = Ok d -> dp_p d = p /\ dp_m d = t /\ dp_c d = c.

  Lemma with_splines_key k d d' : with_splines junk k d = Ok d' ->
    dp_p d' = dp_p d /\ dp_m d' = dp_m d /\ dp_c d' = dp_c d /\
    dp_range d' = dp_range d /\ dp_rs d' = dp_rs d /\ dp_av d' = dp_av d.
  Proof.
    unfold with_splines. intros H.
    apply bind_ok in H; destruct H as (s1 & _ & H).
    apply bind_ok in H; destruct H as (s2 & _ & H).
    apply bind_ok in H; destruct H as (s3 & _ & H).
    inversion H; subst; simpl; auto 10.
  Qed.

  Lemma rcalc_key k p t c d : rcalc k p t c = Ok d -> dp_p d = p /\ dp_m d = t /\ dp_c d = c.
  Proof.
    unfold rcalc. intros H. apply bind_ok in H. destruct H as (d0 & H1 & H2).
    destruct (calc_key _ _ _ _ H1) as (A & B & C).
    destruct (with_splines_key _ _ _ H2) as (A' & B' & C' & _). split; [congruence|split; congruence].
  Qed.

  Definition self_key (p : Projectile F) (t : Material F) (c : Config F) : Prop :=
    proj_eqb p p = true /\ mat_eqb t t = true /\ config_eqb c c = true.

  Lemma get_twice w p t c i w' : wf w -> self_key p t c ->
    data_get junk calc p t c w = Ok (i, w') -> data_get junk calc p t c w' = Ok (i, w').
  Proof.
    intros W (S1 & S2 & S3) H.
    destruct (existsb (key_match p t c) (w_slots w)) eqn:E.
    - destruct (existsb_key_find _ _ _ _ E) as [j Hj].
      rewrite (get_present _ _ _ _ _ Hj) in H. inversion H; subst. now apply get_present.
    - rewrite (get_absent _ _ _ _ W E) in H.
      destruct (rcalc (w_junk w) p t c) as [d|why] eqn:R; simpl in H; [|discriminate].
      inversion H; subst; clear H. apply get_present. simpl.
      destruct (rcalc_key _ _ _ _ _ R) as (K1 & K2 & K3).
      assert (M : key_match p t c d = true).
      { unfold key_match. now rewrite K1, K2, K3, S1, S2, S3. }
      assert (C : (cursor w < length (w_slots w))%nat) by (now apply cursor_in).
      rewrite set_slot_split by assumption.
      assert (P : forall e, In e (w_slots w) -> key_match p t c e = false).
      { intros e He. destruct (key_match p t c e) eqn:K; auto.
        assert (existsb (key_match p t c) (w_slots w) = true) by (apply existsb_exists; eauto).
        congruence. }
      assert (G : forall (l1 : list (DataPoint F)) r, (forall e, In e l1 -> key_match p t c e = false) ->
                  find_slot (key_match p t c) (l1 ++ d :: r) = Some (length l1)).
      { induction l1 as [|x l1 IH]; intros r Hl; simpl.
        - now rewrite M.
        - rewrite Hl by (now left). rewrite IH; auto. intros e He; apply Hl; now right. }
      rewrite G.
      + rewrite firstn_length. f_equal. lia.
      + intros e He. apply P. rewrite <- (firstn_skipn (cursor w) (w_slots w)).
        apply in_or_app. now left.
  Qed.

  (** *** No duplicates (C03) *)
  Definition window (w : world F) : Prop :=
    exists k l, queue w = repeat DP0 k ++ l /\
      ForallOrdPairs (fun old new => dp_eqb old new = false) l /\
      Forall (fun d => dp_range_spline d <> None) l /\
      (k <> 0%nat -> Forall (fun new => dp_eqb DP0 new = false) l).

  Lemma in_queue w e : wf w -> In e (queue w) <-> In e (w_slots w).
  Proof.
    intros W. unfold queue. rewrite <- (firstn_skipn (cursor w) (w_slots w)) at 3.
    rewrite !in_app_iff. tauto.
  Qed.

  Lemma dp_eqb_key (a b : DataPoint F) : dp_eqb a b = key_match (dp_p b) (dp_m b) (dp_c b) a.
  Proof.
    unfold dp_eqb, key_match.
    destruct (mat_eqb (dp_m a) (dp_m b)), (proj_eqb (dp_p a) (dp_p b)); reflexivity.
  Qed.

  Lemma rcalc_spline k p t c d : rcalc k p t c = Ok d -> dp_range_spline d <> None.
  Proof.
    unfold rcalc, with_splines. intros H.
    apply bind_ok in H; destruct H as (d0 & _ & H).
    apply bind_ok in H; destruct H as (s1 & _ & H).
    apply bind_ok in H; destruct H as (s2 & _ & H).
    apply bind_ok in H; destruct H as (s3 & _ & H).
    inversion H; subst; simpl; discriminate.
  Qed.

  Lemma FOP_app_one {A} (R : A -> A -> Prop) l x :
    ForallOrdPairs R l -> Forall (fun a => R a x) l -> ForallOrdPairs R (l ++ [x]).
  Proof.
    induction 1 as [|a l Ha Hl IH]; intros Hx; simpl.
    - constructor; constructor.
    - inversion Hx; subst. constructor.
      + apply Forall_app; split; auto.
      + auto.
  Qed.

  Lemma FOP_tl {A} (R : A -> A -> Prop) l : ForallOrdPairs R l -> ForallOrdPairs R (tl l).
  Proof. destruct 1; simpl; auto. constructor. Qed.

  Lemma window_reset w : window (data_reset w).
  Proof.
    exists 60%nat, []. unfold queue, cursor; simpl. repeat split; auto using FOP_nil, Forall_nil.
  Qed.

  Lemma window_step w o w' : wf w -> window w -> step junk calc w o = Ok w' -> window w'.
  Proof.
    intros W (k & l & Q & D & S & Z) H.
    destruct (step_cases w o w' W H) as [(_ & _ & E1 & E2 & _)|[(_ & _ & ->)|(_ & p & t & c & d & _ & R & A & ->)]].
    - exists k, l. unfold queue, cursor in *. rewrite E1, E2. auto.
    - apply window_reset.
    - assert (NM : forall e, In e (queue w) -> dp_eqb e d = false).
      { intros e He. rewrite dp_eqb_key. destruct (rcalc_key _ _ _ _ _ R) as (-> & -> & ->).
        apply in_queue in He; auto. destruct (key_match p t c e) eqn:K; auto.
        assert (existsb (key_match p t c) (w_slots w) = true) by (apply existsb_exists; eauto).
        congruence. }
      assert (NL : Forall (fun e => dp_eqb e d = false) l).
      { apply Forall_forall. intros e He. apply NM. rewrite Q. apply in_or_app. now right. }
      destruct k as [|k].
      + exists 0%nat, (tl l ++ [d]). simpl in Q.
        rewrite queue_inserted by assumption. rewrite Q. simpl. repeat split; auto.
        * apply FOP_app_one; [now apply FOP_tl|]. destruct l; simpl; auto. now inversion NL.
        * apply Forall_app; split; [destruct l; simpl; auto; now inversion S|].
          constructor; auto. eapply rcalc_spline; eauto.
        * congruence.
      + exists k, (l ++ [d]). rewrite queue_inserted by assumption. rewrite Q. simpl.
        rewrite app_assoc. repeat split; auto.
        * apply FOP_app_one; auto.
        * apply Forall_app; split; auto. constructor; auto. eapply rcalc_spline; eauto.
        * intros _. apply Forall_app; split; auto. constructor; auto.
          apply NM. rewrite Q. simpl. now left.
  Qed.

  Lemma FOP_In {A} (R : A -> A -> Prop) l : ForallOrdPairs R l ->
    forall i j x y, (i < j)%nat -> nth_error l i = Some x -> nth_error l j = Some y -> R x y.
  Proof.
    induction 1 as [|a l Ha Hl IH]; intros i j x y Hij Hi Hj.
    - destruct i; discriminate.
    - destruct i as [|i], j as [|j]; simpl in *; try lia.
      + inversion Hi; subst. eapply Forall_forall in Ha; eauto. eapply nth_error_In; eauto.
      + eapply IH; [|eassumption|eassumption]; lia.
  Qed.

  (** position in the queue of slot i = number of insertions it will still survive *)
  Definition lifetime (w : world F) (i : nat) : nat :=
    if (cursor w <=? i)%nat then i - cursor w else i + 60 - cursor w.

  Lemma queue_nth w i : wf w -> (i < 60)%nat ->
    nth_error (queue w) (lifetime w i) = nth_error (w_slots w) i.
  Proof.
    intros W Hi. pose proof (cursor_lt w W). destruct W as [W1 W2].
    unfold queue, lifetime. destruct (Nat.leb_spec (cursor w) i).
    - rewrite nth_error_app1 by (rewrite skipn_length; lia).
      rewrite <- (firstn_skipn (cursor w) (w_slots w)) at 2.
      rewrite nth_error_app2 by (rewrite firstn_length; lia).
      rewrite firstn_length. f_equal. lia.
    - rewrite nth_error_app2 by (rewrite skipn_length; lia).
      rewrite skipn_length.
      rewrite <- (firstn_skipn (cursor w) (w_slots w)) at 3.
      rewrite nth_error_app1 by (rewrite firstn_length; lia).
      f_equal. lia.
  Qed.

  Lemma lifetime_inj w i j : wf w -> (i < 60)%nat -> (j < 60)%nat ->
    lifetime w i = lifetime w j -> i = j.
  Proof.
    intros W. pose proof (cursor_lt w W). unfold lifetime.
    destruct (Nat.leb_spec (cursor w) i), (Nat.leb_spec (cursor w) j); lia.
  Qed.

  Lemma window_distinct w i j a b :
    (forall x y : DataPoint F, dp_eqb x y = dp_eqb y x) ->
    wf w -> window w -> i <> j ->
    nth_error (w_slots w) i = Some a -> nth_error (w_slots w) j = Some b ->
    dp_range_spline a <> None -> dp_range_spline b <> None -> dp_eqb a b = false.
  Proof.
    intros Sym W (k & l & Q & D & S & Z) Hij Ha Hb Na Nb.
    assert (Li : (i < 60)%nat). { destruct W as [<- _]. apply nth_error_Some. congruence. }
    assert (Lj : (j < 60)%nat). { destruct W as [<- _]. apply nth_error_Some. congruence. }
    rewrite <- (queue_nth w i W Li) in Ha. rewrite <- (queue_nth w j W Lj) in Hb.
    assert (NE : lifetime w i <> lifetime w j) by (intro; apply Hij; eapply lifetime_inj; eauto).
    rewrite Q in Ha, Hb.
    assert (G : forall n x, nth_error (repeat DP0 k ++ l) n = Some x -> dp_range_spline x <> None ->
                (k <= n)%nat /\ nth_error l (n - k) = Some x).
    { intros n x Hn Nx. destruct (Nat.lt_ge_cases n k).
      - rewrite nth_error_app1 in Hn by (rewrite repeat_length; lia).
        apply nth_error_In in Hn. apply repeat_spec in Hn. subst x. now elim Nx.
      - rewrite nth_error_app2 in Hn by (rewrite repeat_length; lia).
        rewrite repeat_length in Hn. auto. }
    destruct (G _ _ Ha Na) as [K1 Ha']. destruct (G _ _ Hb Nb) as [K2 Hb'].
    destruct (Nat.lt_total (lifetime w i - k) (lifetime w j - k)) as [L|[L|L]].
    - eapply (FOP_In _ _ D); eauto.
    - lia.
    - rewrite Sym. eapply (FOP_In _ _ D); eauto.
  Qed.

  (** *** Lifetimes (C04) *)
  Lemma lifetime_bound w i : wf w -> (i < 60)%nat -> (lifetime w i < 60)%nat.
  Proof. intros W Hi. pose proof (cursor_lt w W). unfold lifetime. destruct (Nat.leb_spec (cursor w) i); lia. Qed.

  Lemma lifetime_inserted w d i : wf w -> (i < 60)%nat ->
    lifetime (inserted w d) i = match lifetime w i with O => 59 | S n => n end.
  Proof.
    intros W Hi. pose proof (cursor_lt w W) as C. unfold lifetime.
    assert (C' : cursor (inserted w d) = if Nat.eqb (S (cursor w)) 60 then 0 else S (cursor w)) by reflexivity.
    destruct (Nat.eqb_spec (S (cursor w)) 60).
    - rewrite C'. assert (cursor w = 59) by lia.
      destruct (Nat.leb_spec (cursor w) i), (Nat.leb_spec 0 i); try lia.
      + assert (i = 59) by lia. subst. rewrite H. reflexivity.
      + destruct (i + 60 - cursor w) eqn:E; lia.
    - rewrite C'. destruct (Nat.leb_spec (S (cursor w)) i), (Nat.leb_spec (cursor w) i); try lia.
      + destruct (i - cursor w) eqn:E; lia.
      + assert (i = cursor w) by lia. subst. replace (cursor w - cursor w) with 0 by lia. lia.
      + destruct (i + 60 - cursor w) eqn:E; lia.
  Qed.

  Lemma slot_inserted_other w d i : wf w -> (i < 60)%nat -> lifetime w i <> 0%nat ->
    nth_error (w_slots (inserted w d)) i = nth_error (w_slots w) i.
  Proof.
    intros W Hi L. simpl. apply set_slot_other. intro; subst. apply L. unfold lifetime.
    rewrite Nat.leb_refl. lia.
  Qed.

  Lemma lifetime_0 w i : wf w -> (i < 60)%nat -> lifetime w i = 0%nat -> i = cursor w.
  Proof.
    intros W Hi. pose proof (cursor_lt w W). unfold lifetime.
    destruct (Nat.leb_spec (cursor w) i); lia.
  Qed.

  Lemma no_reset_cons o h : no_reset (F:=F) (o :: h) -> o <> OpReset /\ no_reset h.
  Proof. unfold no_reset; simpl. intros H; split; intro; apply H; auto. Qed.

  Lemma survives h : forall w w' i, wf w -> (i < 60)%nat -> no_reset h ->
    run junk calc h w = Ok w' -> (misses junk calc h w <= lifetime w i)%nat ->
    nth_error (w_slots w') i = nth_error (w_slots w) i /\
    lifetime w' i = (lifetime w i - misses junk calc h w)%nat.
  Proof.
    induction h as [|o h IH]; intros w w' i W Hi NR H L.
    - unfold run in H; simpl in *. inversion H; subst. split; auto. lia.
    - apply run_cons in H. destruct H as (w1 & H1 & H2). simpl misses in L |- *. rewrite H1 in L |- *.
      apply no_reset_cons in NR. destruct NR as [NO NR].
      pose proof (wf_step _ _ _ W H1) as W1.
      destruct (step_cases w o w1 W H1) as [(M & _ & E1 & E2 & _)|[(_ & E & _)|(M & p & t & c & d & _ & R & A & E)]].
      + rewrite M in L |- *. simpl in L |- *.
        assert (EL : lifetime w1 i = lifetime w i) by (unfold lifetime, cursor; now rewrite E2).
        destruct (IH w1 w' i) as [B1 B2]; auto; [lia|]. rewrite B1, B2, E1, EL. auto.
      + contradiction.
      + rewrite M in L |- *. subst w1.
        assert (LP : lifetime w i <> 0%nat) by lia.
        pose proof (lifetime_inserted w d i W Hi) as LI.
        destruct (lifetime w i) as [|n] eqn:EN; [lia|].
        destruct (IH (inserted w d) w' i) as [B1 B2]; auto; [rewrite LI; lia|].
        rewrite B1, B2, LI. split; [|lia]. apply slot_inserted_other; auto. lia.
  Qed.

  (** the entry is replaced by the insertion after its lifetime has run out *)
  Lemma run_app h1 h2 w : run junk calc (h1 ++ h2) w = bind (run junk calc h1 w) (run junk calc h2).
  Proof. apply ofold_app. Qed.

  Lemma misses_split h : forall w w' n, wf w -> run junk calc h w = Ok w' ->
    (n < misses junk calc h w)%nat ->
    exists h1 o h2 w1 w2, h = h1 ++ o :: h2 /\ run junk calc h1 w = Ok w1 /\
      misses junk calc h1 w = n /\ is_miss o w1 = true /\ step junk calc w1 o = Ok w2 /\
      run junk calc h2 w2 = Ok w' /\ (S n + misses junk calc h2 w2 = misses junk calc h w)%nat.
  Proof.
    induction h as [|o h IH]; intros w w' n W H L; [simpl in L; lia|].
    apply run_cons in H. destruct H as (w1 & H1 & H2). simpl misses in L |- *. rewrite H1 in L |- *.
    pose proof (wf_step _ _ _ W H1) as W1.
    destruct (is_miss o w) eqn:M.
    - destruct n as [|n].
      + exists [], o, h, w, w1. simpl. repeat split; auto.
      + destruct (IH w1 w' n W1 H2) as (h1 & o' & h2 & wa & wb & A1 & A2 & A3 & A4 & A5 & A6 & A7); [lia|].
        exists (o :: h1), o', h2, wa, wb. subst h. repeat split; auto.
        * change (o :: h1) with ([o] ++ h1). rewrite run_app. unfold run at 1. simpl. rewrite H1. exact A2.
        * simpl. rewrite H1, M. lia.
        * lia.
    - destruct (IH w1 w' n W1 H2) as (h1 & o' & h2 & wa & wb & A1 & A2 & A3 & A4 & A5 & A6 & A7); [lia|].
      exists (o :: h1), o', h2, wa, wb. subst h. repeat split; auto.
      * change (o :: h1) with ([o] ++ h1). rewrite run_app. unfold run at 1. simpl. rewrite H1. exact A2.
      * simpl. rewrite H1, M. lia.
  Qed.

  Lemma dies h : forall w w' i e, wf w -> window w -> (i < 60)%nat -> no_reset h ->
    run junk calc h w = Ok w' -> misses junk calc h w = S (lifetime w i) ->
    nth_error (w_slots w) i = Some e ->
    exists e', nth_error (w_slots w') i = Some e' /\ dp_eqb e e' = false.
  Proof.
    intros w w' i e W Win Hi NR H M He.
    destruct (misses_split h w w' (lifetime w i) W H) as (h1 & o & h2 & w1 & w2 & E & R1 & M1 & MO & SO & R2 & M2); [lia|].
    subst h.
    assert (NR1 : no_reset h1) by (intro X; apply NR; apply in_or_app; now left).
    assert (NR2 : no_reset h2) by (intro X; apply NR; apply in_or_app; right; now right).
    pose proof (run_wf _ _ _ W R1) as W1.
    destruct (survives h1 w w1 i W Hi NR1 R1) as [S1 S2]; [lia|].
    rewrite M1, Nat.sub_diag in S2.
    destruct (step_cases w1 o w2 W1 SO) as [(M' & _)|[(M' & _)|(M' & p & t & c & d & _ & R & A & E)]]; try congruence.
    subst w2. pose proof (lifetime_0 w1 i W1 Hi S2) as CI.
    assert (M3 : misses junk calc h2 (inserted w1 d) = 0%nat) by lia.
    destruct (survives h2 (inserted w1 d) w' i) as [S3 _]; auto using wf_inserted; [lia|].
    exists d. split.
    - rewrite S3. simpl. rewrite CI. apply set_slot_same. now apply cursor_in.
    - rewrite dp_eqb_key. destruct (rcalc_key _ _ _ _ _ R) as (-> & -> & ->).
      destruct (key_match p t c e) eqn:K; auto.
      assert (existsb (key_match p t c) (w_slots w1) = true).
      { apply existsb_exists. exists e. split; auto. apply (nth_error_In _ i); now rewrite S1. }
      congruence.
  Qed.

  (** *** Contents (C01) *)
  (** the entry was computed, from its own key *)
  Definition computed (d : DataPoint F) : Prop :=
    exists k, rcalc k (dp_p d) (dp_m d) (dp_c d) = Ok d.

  Definition valid (w : world F) : Prop :=
    Forall (fun d => d = DP0 \/ computed d) (w_slots w).

  Lemma valid_world0 : valid world0.
  Proof. unfold valid. simpl. repeat constructor; auto. Qed.

  Lemma Forall_set_slot (P : DataPoint F -> Prop) l i d : Forall P l -> P d -> Forall P (set_slot l i d).
  Proof.
    intros H Hd; revert i; induction H; intros [|i]; simpl; auto.
  Qed.

  Lemma valid_step w o w' : wf w -> valid w -> step junk calc w o = Ok w' -> valid w'.
  Proof.
    intros W V H.
    destruct (step_cases w o w' W H) as [(_ & _ & E1 & E2 & _)|[(_ & _ & ->)|(_ & p & t & c & d & _ & R & A & ->)]].
    - unfold valid. now rewrite E1.
    - apply valid_world0.
    - unfold valid; simpl. apply Forall_set_slot; auto. right. exists (w_junk w).
      destruct (rcalc_key _ _ _ _ _ R) as (-> & -> & ->). exact R.
  Qed.
End Proofs.
