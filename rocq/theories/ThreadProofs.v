(** * One thread of Data::Get by itself, and how its steps combine *)
From Coq Require Import ZArith List Bool Lia Arith.
From Verif Require Import Num Structures EnergyTable Spline Integrator Calculations Storage CacheProofs Threads.
Import ListNotations.

Section ThreadProofs.
  Context {F : Type} {N : Num F}.
  Variable junk : nat -> F * F.
  Variable calc : Projectile F -> Material F -> Config F -> outcome (DataPoint F).
  Notation tstep := (tstep junk calc).
  Notation srun := (srun junk calc).

  (** n steps of one thread *)
  Fixpoint titer (n : nat) (s : thread F * world F) : outcome (thread F * world F) :=
    match n with
    | O => Ok s
    | S n' => bind (tstep (fst s) (snd s)) (titer n')
    end.

  Lemma titer_add a b s : titer (a + b) s = bind (titer a s) (titer b).
  Proof.
    revert s; induction a as [|a IH]; intros s; [reflexivity|].
    cbn [titer Nat.add]. destruct (tstep (fst s) (snd s)) as [s'|]; [|reflexivity].
    cbn [bind]. apply IH.
  Qed.
  Lemma titer_S n s : titer (S n) s = bind (titer n s) (fun s => tstep (fst s) (snd s)).
  Proof.
    replace (S n) with (n + 1)%nat by lia. rewrite titer_add.
    destruct (titer n s) as [[t w]|]; [|reflexivity]. cbn [bind titer fst snd].
    destruct (tstep t w) as [[t' w']|]; reflexivity.
  Qed.
  Lemma titer_done n t w i : t_pc t = Done i -> titer n (t, w) = Ok (t, w).
  Proof.
    intros E; induction n as [|n IH]; [reflexivity|].
    cbn [titer fst snd]. unfold Threads.tstep. rewrite E. exact IH.
  Qed.

  Lemma set_thread_length (l : list (thread F)) k t : length (set_thread l k t) = length l.
  Proof. revert k; induction l as [|x l IH]; intros [|k]; simpl; auto. Qed.
  Lemma set_thread_same (l : list (thread F)) k t x :
    nth_error l k = Some x -> nth_error (set_thread l k t) k = Some t.
  Proof. revert k; induction l as [|y l IH]; intros [|k]; simpl; try discriminate; auto. Qed.
  Lemma set_thread_other (l : list (thread F)) k j t :
    k <> j -> nth_error (set_thread l k t) j = nth_error l j.
  Proof.
    revert k j; induction l as [|y l IH]; intros [|k] [|j] H; simpl; auto; try congruence.
  Qed.
  Lemma set_thread_twice (l : list (thread F)) k a b :
    set_thread (set_thread l k a) k b = set_thread l k b.
  Proof. revert k; induction l as [|y l IH]; intros [|k]; simpl; auto. now rewrite IH. Qed.
  Lemma set_thread_id (l : list (thread F)) k t : nth_error l k = Some t -> set_thread l k t = l.
  Proof.
    revert k; induction l as [|y l IH]; intros [|k]; simpl; try discriminate.
    - congruence.
    - intros H. now rewrite IH.
  Qed.

  Lemma srun_app a b s : srun (a ++ b) s = bind (srun a s) (srun b).
  Proof.
    unfold Threads.srun. revert s; induction a as [|k a IH]; intros s; [reflexivity|].
    cbn [app ofold]. destruct (sstep junk calc s k) as [s'|]; [|reflexivity]. cbn [bind]. apply IH.
  Qed.
  Lemma srun_cons k b s : srun (k :: b) s = bind (sstep junk calc s k) (srun b).
  Proof. reflexivity. Qed.

  (** the same thread scheduled n times in a row *)
  Lemma srun_repeat n : forall ts w k t, nth_error ts k = Some t ->
    srun (repeat k n) (ts, w) =
    bind (titer n (t, w)) (fun s => Ok (set_thread ts k (fst s), snd s)).
  Proof.
    induction n as [|n IH]; intros ts w k t E.
    - simpl. unfold Threads.srun; simpl. rewrite (set_thread_id ts k t E). reflexivity.
    - cbn [repeat titer fst snd]. rewrite srun_cons. unfold sstep. cbn [fst snd]. rewrite E.
      destruct (tstep t w) as [[t' w']|]; [|reflexivity]. cbn [bind].
      rewrite (IH _ w' k t'); [|eapply set_thread_same; eauto].
      destruct (titer n (t', w')) as [[t2 w2]|]; [|reflexivity]. cbn [bind fst snd].
      now rewrite set_thread_twice.
  Qed.

  (** scanning *)
  Lemma at_pc_same (t : thread F) q : t_p (at_pc t q) = t_p t /\ t_m (at_pc t q) = t_m t /\ t_c (at_pc t q) = t_c t /\ t_pc (at_pc t q) = q.
  Proof. repeat split. Qed.
  Lemma at_pc_twice (t : thread F) q r : at_pc (at_pc t q) r = at_pc t r.
  Proof. reflexivity. Qed.

  Lemma gscan_hit t w i : find_slot (key_match (t_p t) (t_m t) (t_c t)) (w_slots w) = Some i ->
    titer (S i) (at_pc t (GScan 0), w) = Ok (at_pc t (Done i), w).
  Proof.
    intros H. apply find_slot_some in H. destruct H as (e & He & Hq & Hn).
    assert (G : forall n, (n <= i)%nat -> titer n (at_pc t (GScan 0), w) = Ok (at_pc t (GScan n), w)).
    { induction n as [|n IH]; intros Hle; [reflexivity|].
      rewrite titer_S, IH by lia. cbn [bind fst snd]. unfold Threads.tstep.
      cbn [t_pc at_pc t_p t_m t_c].
      destruct (nth_error (w_slots w) n) as [x|] eqn:Ex.
      - now rewrite (Hn n x) by (auto; lia).
      - apply nth_error_None in Ex. assert (nth_error (w_slots w) i = None).
        { apply nth_error_None; lia. } congruence. }
    rewrite titer_S, G by lia. cbn [bind fst snd]. unfold Threads.tstep.
    cbn [t_pc at_pc t_p t_m t_c]. now rewrite He, Hq.
  Qed.

  Lemma scan_nth q (l : list (DataPoint F)) n x :
    find_slot q l = None -> nth_error l n = Some x -> q x = false.
  Proof. intros H E. apply (proj1 (find_slot_none q l) H). eapply nth_error_In; eauto. Qed.

  Lemma gscan_miss t w : find_slot (key_match (t_p t) (t_m t) (t_c t)) (w_slots w) = None ->
    titer (S (length (w_slots w))) (at_pc t (GScan 0), w) = Ok (at_pc t (AScan 0), w).
  Proof.
    intros H.
    assert (G : forall n, (n <= length (w_slots w))%nat ->
      titer n (at_pc t (GScan 0), w) = Ok (at_pc t (GScan n), w)).
    { induction n as [|n IH]; intros Hle; [reflexivity|].
      rewrite titer_S, IH by lia. cbn [bind fst snd]. unfold Threads.tstep.
      cbn [t_pc at_pc t_p t_m t_c].
      destruct (nth_error (w_slots w) n) as [x|] eqn:Ex.
      - now rewrite (scan_nth _ _ n x H Ex).
      - apply nth_error_None in Ex. lia. }
    rewrite titer_S, G by lia. cbn [bind fst snd]. unfold Threads.tstep.
    cbn [t_pc at_pc]. now rewrite (proj2 (nth_error_None _ _)) by lia.
  Qed.
  Lemma ascan_miss t w : find_slot (key_match (t_p t) (t_m t) (t_c t)) (w_slots w) = None ->
    titer (S (length (w_slots w))) (at_pc t (AScan 0), w) = Ok (at_pc t AWrap, w).
  Proof.
    intros H.
    assert (G : forall n, (n <= length (w_slots w))%nat ->
      titer n (at_pc t (AScan 0), w) = Ok (at_pc t (AScan n), w)).
    { induction n as [|n IH]; intros Hle; [reflexivity|].
      rewrite titer_S, IH by lia. cbn [bind fst snd]. unfold Threads.tstep.
      cbn [t_pc at_pc t_p t_m t_c].
      destruct (nth_error (w_slots w) n) as [x|] eqn:Ex.
      - now rewrite key_match_dp_eqb, (scan_nth _ _ n x H Ex).
      - apply nth_error_None in Ex. lia. }
    rewrite titer_S, G by lia. cbn [bind fst snd]. unfold Threads.tstep.
    cbn [t_pc at_pc]. now rewrite (proj2 (nth_error_None _ _)) by lia.
  Qed.

  Lemma set_slot_twice (l : list (DataPoint F)) i a b : set_slot (set_slot l i a) i b = set_slot l i b.
  Proof. revert i; induction l as [|y l IH]; intros [|i]; simpl; auto. now rewrite IH. Qed.

  (** from the end of the scans to the assignment *)
  Lemma prepare t w d : wf w -> calc (t_p t) (t_m t) (t_c t) = Ok d ->
    titer 2 (at_pc t AWrap, w) = Ok (at_pc t (AWrite d), with_index (cursor w) w).
  Proof.
    intros [W1 W2] E. cbn [titer fst snd]. unfold Threads.tstep at 1.
    cbn [t_pc at_pc bind fst snd]. unfold Threads.tstep at 1.
    cbn [t_pc t_p t_m t_c at_pc bind fst snd]. rewrite E. cbn [bind titer]. unfold cursor.
    rewrite W1. destruct (Nat.eqb (w_index w) 60); [reflexivity|]. destruct w; reflexivity.
  Qed.

  Lemma build_three (j : nat) d :
    bind (build_spline 0 (junk j) d) (fun d => bind (build_spline 1 (junk (S j)) d)
         (fun d => build_spline 2 (junk (S (S j))) d)) = with_splines junk j d.
  Proof.
    unfold build_spline, with_splines.
    replace (j + 1)%nat with (S j) by lia. replace (j + 2)%nat with (S (S j)) by lia.
    destruct (make_spline energy_table (dp_range d) (junk j)); [|reflexivity]. cbn [bind dp_rs dp_av dp_range].
    destruct (make_spline energy_table (dp_rs d) (junk (S j))); [|reflexivity].
    cbn [bind dp_rs dp_av dp_range].
    destruct (make_spline energy_table (dp_av d) (junk (S (S j)))); reflexivity.
  Qed.

  (** the assignment and the three splines, whatever the index is by then *)
  Lemma write_built t w d : (w_index w < length (w_slots w))%nat ->
    titer 4 (at_pc t (AWrite d), w) =
    (d' <- with_splines junk (w_junk w) d ;;
     Ok (at_pc t AInc, mkW (set_slot (w_slots w) (w_index w) d') (w_index w) (w_default w) (w_junk w + 3))).
  Proof.
    intros Hc.
    assert (L : (w_index w <? length (w_slots w))%nat = true) by now apply Nat.ltb_lt.
    rewrite <- build_three.
    cbn [titer fst snd]. unfold Threads.tstep at 1. cbn [t_pc at_pc w_index w_slots with_index].
    rewrite L. cbn [bind fst snd].
    unfold Threads.tstep at 1. cbn [t_pc at_pc w_index w_slots with_index with_slots w_junk].
    rewrite set_slot_same by auto.
    destruct (build_spline 0 (junk (w_junk w)) d) as [d1|]; [|reflexivity]. cbn [bind fst snd Nat.eqb].
    unfold Threads.tstep at 1. cbn [t_pc at_pc w_index w_slots with_index with_slots w_junk].
    rewrite set_slot_twice, set_slot_same by auto.
    destruct (build_spline 1 _ d1) as [d2|]; [|reflexivity]. cbn [bind fst snd Nat.eqb].
    unfold Threads.tstep at 1. cbn [t_pc at_pc w_index w_slots with_index with_slots w_junk].
    rewrite set_slot_twice, set_slot_same by auto.
    destruct (build_spline 2 _ d2) as [d3|]; [|reflexivity]. cbn [bind fst snd Nat.eqb].
    rewrite !set_slot_twice. replace (w_junk w + 3)%nat with (S (S (S (w_junk w)))) by lia. reflexivity.
  Qed.
  (** ... and ++index *)
  Lemma write_entry t w d : wf w ->
    titer 5 (at_pc t (AWrite d), with_index (cursor w) w) =
    (d' <- with_splines junk (w_junk w) d ;; Ok (at_pc t GPrev, inserted w d')).
  Proof.
    intros W. pose proof (cursor_in w W) as Hc.
    rewrite titer_S, write_built by exact Hc. cbn [w_index w_slots w_junk w_default with_index].
    destruct (with_splines junk (w_junk w) d) as [d'|]; [|reflexivity]. cbn [bind fst snd].
    unfold Threads.tstep. cbn [t_pc at_pc w_index w_slots]. rewrite set_slot_length.
    rewrite (proj2 (Nat.ltb_lt _ _)) by exact Hc. reflexivity.
  Qed.
  Lemma prev_step t w d : tstep (at_pc t GPrev) (inserted w d) = Ok (at_pc t (Done (cursor w)), inserted w d).
  Proof. reflexivity. Qed.
  Lemma finish t w d : wf w ->
    titer 6 (at_pc t (AWrite d), with_index (cursor w) w) =
    (d' <- with_splines junk (w_junk w) d ;; Ok (at_pc t (Done (cursor w)), inserted w d')).
  Proof.
    intros W. rewrite titer_S, (write_entry t w d W).
    destruct (with_splines junk (w_junk w) d); reflexivity.
  Qed.

  Lemma from_wrap t w : wf w ->
    titer 8 (at_pc t AWrap, w) =
    (d <- rcalc junk calc (w_junk w) (t_p t) (t_m t) (t_c t) ;; Ok (at_pc t (Done (cursor w)), inserted w d)).
  Proof.
    intros W. unfold rcalc. destruct (calc (t_p t) (t_m t) (t_c t)) as [d|why] eqn:E.
    - change 8%nat with (2 + 6)%nat. rewrite titer_add, (prepare t w d W E). cbn [bind].
      apply finish; auto.
    - cbn [titer fst snd]. unfold Threads.tstep at 1. cbn [t_pc at_pc bind fst snd].
      unfold Threads.tstep at 1. cbn [t_pc t_p t_m t_c at_pc bind fst snd]. now rewrite E.
  Qed.

  (** one hundred and thirty steps are a whole lookup *)
  Lemma whole t w : wf w -> t_pc t = GScan 0 ->
    titer 130 (t, w) =
    (r <- data_get junk calc (t_p t) (t_m t) (t_c t) w ;; Ok (at_pc t (Done (fst r)), snd r)).
  Proof.
    intros W E. assert (Et : t = at_pc t (GScan 0)) by (unfold at_pc; rewrite <- E; destruct t; reflexivity).
    destruct (find_slot (key_match (t_p t) (t_m t) (t_c t)) (w_slots w)) as [i|] eqn:Ef.
    - rewrite (get_present junk calc _ _ _ w i Ef). cbn [bind fst snd].
      assert (i < 60)%nat.
      { apply find_slot_some in Ef. destruct Ef as (e & He & _). destruct W as [<- _].
        apply nth_error_Some. congruence. }
      replace 130%nat with (S i + (129 - i))%nat by lia. rewrite titer_add.
      rewrite Et at 1. rewrite (gscan_hit t w i Ef). cbn [bind]. eapply titer_done. reflexivity.
    - rewrite (get_absent junk calc _ _ _ w W) by now apply find_slot_existsb.
      change 130%nat with (61 + (61 + 8))%nat. rewrite !titer_add.
      pose proof (gscan_miss t w Ef) as G1. pose proof (ascan_miss t w Ef) as G2.
      rewrite (proj1 W) in G1, G2. rewrite Et at 1. rewrite G1. cbn [bind].
      rewrite titer_add, G2. cbn [bind]. rewrite (from_wrap t w W).
      destruct (rcalc junk calc (w_junk w) (t_p t) (t_m t) (t_c t)); reflexivity.
  Qed.

  Lemma start_eq (t : thread F) : t_pc t = GScan 0 -> t = at_pc t (GScan 0).
  Proof. intros E. unfold at_pc. rewrite <- E. destruct t; reflexivity. Qed.

  (** a miss up to the point where the tables are computed but not yet stored *)
  Lemma to_write t w d : wf w -> t_pc t = GScan 0 ->
    existsb (key_match (t_p t) (t_m t) (t_c t)) (w_slots w) = false ->
    calc (t_p t) (t_m t) (t_c t) = Ok d ->
    titer 124 (t, w) = Ok (at_pc t (AWrite d), with_index (cursor w) w).
  Proof.
    intros W E A C. apply find_slot_existsb in A.
    change 124%nat with (61 + (61 + 2))%nat. rewrite !titer_add.
    pose proof (gscan_miss t w A) as G1. pose proof (ascan_miss t w A) as G2.
    rewrite (proj1 W) in G1, G2. rewrite (start_eq t E) at 1. rewrite G1. cbn [bind].
    rewrite titer_add, G2. cbn [bind]. now apply prepare.
  Qed.
  (** ... and up to the point where only the reference is still to be returned *)
  Lemma to_prev t w d : wf w -> t_pc t = GScan 0 ->
    existsb (key_match (t_p t) (t_m t) (t_c t)) (w_slots w) = false ->
    rcalc junk calc (w_junk w) (t_p t) (t_m t) (t_c t) = Ok d ->
    titer 129 (t, w) = Ok (at_pc t GPrev, inserted w d).
  Proof.
    intros W E A C. unfold rcalc in C.
    destruct (calc (t_p t) (t_m t) (t_c t)) as [d0|] eqn:C0; [|discriminate]. cbn [bind] in C.
    change 129%nat with (124 + 5)%nat. rewrite titer_add, (to_write t w d0 W E A C0). cbn [bind].
    rewrite (write_entry t w d0 W), C. reflexivity.
  Qed.

  (** a thread whose key is stored only reads *)
  Definition same_key (t t' : thread F) : Prop := t_p t' = t_p t /\ t_m t' = t_m t /\ t_c t' = t_c t.
  Definition reading (i : nat) (t : thread F) : Prop :=
    (exists j, t_pc t = GScan j /\ (j <= i)%nat) \/ t_pc t = Done i.
  Lemma reader_step i t w :
    (forall j e, (j < i)%nat -> nth_error (w_slots w) j = Some e ->
                 key_match (t_p t) (t_m t) (t_c t) e = false) ->
    (exists e, nth_error (w_slots w) i = Some e /\ key_match (t_p t) (t_m t) (t_c t) e = true) ->
    reading i t -> exists t', tstep t w = Ok (t', w) /\ reading i t' /\ same_key t t'.
  Proof.
    intros B (e & Ee & Me) [(j & E & J)|E]; unfold Threads.tstep; rewrite E.
    - destruct (nth_error (w_slots w) j) as [x|] eqn:Ex.
      + destruct (Nat.eq_dec j i) as [->|NE].
        * replace x with e by congruence. rewrite Me. eexists. split; [reflexivity|].
          split; [right; reflexivity|repeat split].
        * rewrite (B j x) by (auto; lia). eexists. split; [reflexivity|].
          split; [left; exists (S j); split; [reflexivity|lia]|repeat split].
      + apply nth_error_None in Ex. assert (nth_error (w_slots w) i = None).
        { apply nth_error_None. lia. } congruence.
    - exists t. split; [reflexivity|]. split; [now right|repeat split].
  Qed.

  (** what a thread can have done to the cache so far *)
  Hypothesis calc_key : forall p t c d, calc p t c = Ok d -> dp_p d = p /\ dp_m d = t /\ dp_c d = c.
  Definition owns (t : thread F) (d : DataPoint F) : Prop := dp_p d = t_p t /\ dp_m d = t_m t /\ dp_c d = t_c t.
  Definition touched (t : thread F) (w w' : world F) : Prop :=
    w_index w' = cursor w /\ exists e, owns t e /\ w_slots w' = set_slot (w_slots w) (cursor w) e.
  Definition progress (t : thread F) (w : world F) (s : thread F * world F) : Prop :=
    same_key t (fst s) /\
    match t_pc (fst s) with
    | GScan _ | AScan _ | AWrap => snd s = w
    | ACompute => snd s = with_index (cursor w) w
    | AWrite d => snd s = with_index (cursor w) w /\ owns t d
    | ASpline _ | AInc => touched t w (snd s)
    | GPrev | Done _ => w_slots (snd s) = w_slots w \/
        exists e, owns t e /\ w_slots (snd s) = set_slot (w_slots w) (cursor w) e
    end.

  Lemma build_owns t k j d d' : owns t d -> build_spline k j d = Ok d' -> owns t d'.
  Proof.
    intros O B. unfold build_spline in B.
    destruct k as [|[|k]];
      match type of B with context [bind ?x _] => destruct x; [|discriminate] end;
      cbn [bind] in B; inversion B; exact O.
  Qed.

  Lemma progress_step t w s s' : wf w -> progress t w s ->
    tstep (fst s) (snd s) = Ok s' -> progress t w s'.
  Proof.
    intros W (SK & P) ST. pose proof (cursor_in w W) as Hc. destruct s as [t1 w1]. cbn [fst snd] in *.
    destruct SK as (K1 & K2 & K3).
    assert (SK : forall q, same_key t (at_pc t1 q)) by (intros q; repeat split; assumption).
    unfold Threads.tstep in ST. destruct (t_pc t1) eqn:E.
    - subst w1. destruct (nth_error (w_slots w) i) as [e|].
      + inversion ST; subst s'. split; [apply SK|]. cbn [fst snd t_pc at_pc].
        destruct (key_match (t_p t1) (t_m t1) (t_c t1) e); [now left|reflexivity].
      + inversion ST; subst s'. split; [apply SK|reflexivity].
    - subst w1. destruct (nth_error (w_slots w) i) as [e|].
      + inversion ST; subst s'. split; [apply SK|]. cbn [fst snd t_pc at_pc].
        destruct (dp_eqb e _); [now left|reflexivity].
      + inversion ST; subst s'. split; [apply SK|reflexivity].
    - subst w1. inversion ST; subst s'. split; [apply SK|]. cbn [fst snd t_pc at_pc].
      unfold cursor. rewrite (proj1 W). destruct (Nat.eqb (w_index w) 60); [reflexivity|].
      destruct w; reflexivity.
    - subst w1. destruct (calc (t_p t1) (t_m t1) (t_c t1)) as [d|] eqn:C; [|discriminate].
      cbn [bind] in ST. inversion ST; subst s'. split; [apply SK|]. cbn [fst snd t_pc at_pc].
      split; [reflexivity|]. destruct (calc_key _ _ _ _ C) as (D1 & D2 & D3).
      repeat split; congruence.
    - destruct P as (-> & O). destruct (_ <? _)%nat; [|discriminate]. inversion ST; subst s'.
      split; [apply SK|]. cbn [fst snd t_pc at_pc]. split; [reflexivity|]. exists d. split; [exact O|reflexivity].
    - destruct P as (P1 & e & O & P2). rewrite P1, P2, set_slot_same in ST by assumption.
      destruct (build_spline k (junk (w_junk w1)) e) as [e'|] eqn:B; [|discriminate]. cbn [bind] in ST.
      inversion ST; subst s'. split; [apply SK|]. cbn [fst snd t_pc at_pc].
      assert (T : touched t w (mkW (set_slot (set_slot (w_slots w) (cursor w) e) (cursor w) e') (cursor w)
                    (w_default w1) (S (w_junk w1)))).
      { split; [reflexivity|]. exists e'. split; [eapply build_owns; eauto|].
        cbn [w_slots]. apply set_slot_twice. }
      destruct (Nat.eqb k 2); exact T.
    - destruct P as (P1 & e & O & P2). destruct (_ <? _)%nat; [|discriminate]. inversion ST; subst s'.
      split; [apply SK|]. cbn [fst snd t_pc at_pc]. right. exists e. split; [exact O|exact P2].
    - destruct (w_index w1); [discriminate|]. inversion ST; subst s'. split; [apply SK|exact P].
    - inversion ST; subst s'. split; [repeat split; assumption|]. cbn [fst snd]. rewrite E. exact P.
  Qed.

  Lemma progress_titer t w n s : wf w -> t_pc t = GScan 0 ->
    titer n (t, w) = Ok s -> progress t w s.
  Proof.
    intros W E. revert s; induction n as [|n IH]; intros s T.
    - inversion T; subst s. split; [repeat split|]. cbn [fst snd]. now rewrite E.
    - rewrite titer_S in T. destruct (titer n (t, w)) as [s1|]; [|discriminate]. cbn [bind] in T.
      eapply progress_step; eauto.
  Qed.

  Lemma progress_slots t w s : wf w -> progress t w s ->
    w_slots (snd s) = w_slots w \/ exists e, owns t e /\ w_slots (snd s) = set_slot (w_slots w) (cursor w) e.
  Proof.
    intros W (_ & P). destruct (t_pc (fst s)); try (rewrite P; left; reflexivity); try exact P.
    - destruct P as (-> & _). now left.
    - destruct P as (_ & e & O & P). right. eauto.
    - destruct P as (_ & e & O & P). right. eauto.
  Qed.

  Lemma titer_defined t w r n : wf w -> t_pc t = GScan 0 ->
    data_get junk calc (t_p t) (t_m t) (t_c t) w = Ok r -> exists s, titer n (t, w) = Ok s.
  Proof.
    intros W E G. pose proof (whole t w W E) as H. rewrite G in H. cbn [bind] in H.
    destruct (Nat.le_gt_cases n 130) as [L|L].
    - replace 130%nat with (n + (130 - n))%nat in H by lia. rewrite titer_add in H.
      destruct (titer n (t, w)) as [s|]; [eauto|discriminate].
    - replace n with (130 + (n - 130))%nat by lia. rewrite titer_add, H. cbn [bind].
      eexists. eapply titer_done. reflexivity.
  Qed.
  Lemma titer_finished t w r n t' w' i : wf w -> t_pc t = GScan 0 ->
    data_get junk calc (t_p t) (t_m t) (t_c t) w = Ok r ->
    titer n (t, w) = Ok (t', w') -> t_pc t' = Done i -> r = (i, w').
  Proof.
    intros W E G T D. pose proof (whole t w W E) as H. rewrite G in H. cbn [bind] in H.
    assert (A : titer (n + 130) (t, w) = Ok (t', w')).
    { rewrite titer_add, T. cbn [bind]. eapply titer_done; eauto. }
    rewrite Nat.add_comm, titer_add, H in A. cbn [bind] in A.
    rewrite (titer_done n _ _ (fst r)) in A by reflexivity. inversion A; subst t' w'.
    cbn [t_pc at_pc] in D. inversion D. destruct r; reflexivity.
  Qed.
End ThreadProofs.
