(** * Property C07: several threads in the cache at once *)
From Coq Require Import ZArith Reals List Bool Lra Lia Arith FinFun.
From Verif Require Import Num NumR Structures EnergyTable Spline Integrator Calculations
  Storage Catima CacheProofs CacheFresh History KeyEq ApiCache BoundsProofs TotalProofs
  ApiTotal Cases Threads ThreadProofs PropCache.
Import ListNotations.

Notation CD := calculate_DataPoint.

(** a thread that is not interrupted does exactly what Get does, undefined behaviour included,
    whatever the other threads are in the middle of *)
Theorem C07_uninterrupted {F} {N : Num F} (junk : nat -> F * F) ops w ts k t n :
  run junk CD ops world0 = Ok w ->
  nth_error ts k = Some t -> t_pc t = GScan 0 -> (130 <= n)%nat ->
  srun junk CD (repeat k n) (ts, w) =
  (r <- data_get junk CD (t_p t) (t_m t) (t_c t) w ;;
   Ok (set_thread ts k (at_pc t (Done (fst r))), snd r)).
Proof.
  intros R E P L. assert (W : wf w) by (eapply run_wf; [apply wf_world0|exact R]).
  rewrite (srun_repeat junk CD n ts w k t E). replace n with (130 + (n - 130))%nat by lia.
  rewrite titer_add, (whole junk CD t w W P).
  destruct (data_get junk CD (t_p t) (t_m t) (t_c t) w) as [[i w']|]; [|reflexivity].
  cbn [bind fst snd]. rewrite (titer_done junk CD _ _ _ i) by reflexivity. reflexivity.
Qed.
Print Assumptions C07_uninterrupted.

(** two lookups that do not overlap: the sequential results *)
Corollary C07_serial {F} {N : Num F} (junk : nat -> F * F) ops w p1 m1 c1 p2 m2 c2 i w1 j w2 :
  run junk CD ops world0 = Ok w ->
  data_get junk CD p1 m1 c1 w = Ok (i, w1) -> data_get junk CD p2 m2 c2 w1 = Ok (j, w2) ->
  srun junk CD (repeat 0 130 ++ repeat 1 130)%nat ([start p1 m1 c1; start p2 m2 c2], w) =
  Ok ([mkT p1 m1 c1 (Done i); mkT p2 m2 c2 (Done j)], w2).
Proof.
  intros R G1 G2. rewrite srun_app.
  rewrite (C07_uninterrupted junk ops w _ 0%nat (start p1 m1 c1) 130 R) by (reflexivity || lia).
  cbn [t_p t_m t_c start]. rewrite G1. cbn [bind fst snd set_thread at_pc t_p t_m t_c].
  rewrite (C07_uninterrupted junk (ops ++ [OpGet p1 m1 c1]) w1 _ 1%nat (start p2 m2 c2) 130);
    try reflexivity; try lia.
  - cbn [t_p t_m t_c start]. rewrite G2. reflexivity.
  - rewrite run_app, R. cbn [bind]. unfold run. cbn [ofold step]. rewrite G1. reflexivity.
Qed.
Print Assumptions C07_serial.

(** A state is what the readers and at most one inserting thread can have made of it. *)
Lemma hit_first {F} {N : Num F} (junk : nat -> F * F) p m c (w : world F) i : wf w ->
  data_get junk CD p m c w = Ok (i, w) ->
  (forall j e, (j < i)%nat -> nth_error (w_slots w) j = Some e -> key_match p m c e = false) /\
  exists e, nth_error (w_slots w) i = Some e /\ key_match p m c e = true.
Proof.
  intros W G. destruct (find_slot (key_match p m c) (w_slots w)) as [k|] eqn:E.
  - rewrite (get_present junk CD p m c w k E) in G. inversion G; subst k.
    apply find_slot_some in E. destruct E as (e & E1 & E2 & E3). split; [exact E3|eauto].
  - rewrite (get_absent junk CD p m c w W) in G by now apply find_slot_existsb.
    destruct (rcalc junk CD (w_junk w) p m c); [|discriminate]. cbn [bind] in G.
    injection G as _ G2. apply (f_equal w_junk) in G2. cbn [w_junk] in G2. lia.
Qed.

(** Any number of threads, any schedule, any number of steps, all keys stored: the cache does not
    change, and every thread that has returned has returned what it would have alone. *)
Theorem C07_hits {F} {N : Num F} (junk : nat -> F * F) ops w ts schedule :
  run junk CD ops world0 = Ok w ->
  (forall k t, nth_error ts k = Some t -> t_pc t = GScan 0 /\ present (t_p t) (t_m t) (t_c t) w) ->
  exists ts', srun junk CD schedule (ts, w) = Ok (ts', w) /\
    forall k t t' i, nth_error ts k = Some t -> nth_error ts' k = Some t' -> t_pc t' = Done i ->
      data_get junk CD (t_p t) (t_m t) (t_c t) w = Ok (i, w).
Proof.
  intros R H. assert (W : wf w) by (eapply run_wf; [apply wf_world0|exact R]).
  assert (G : forall k t, nth_error ts k = Some t ->
            exists i, data_get junk CD (t_p t) (t_m t) (t_c t) w = Ok (i, w)).
  { intros k t E. destruct (H k t E) as (_ & P). apply (C03_hit_changes_nothing junk) in P.
    destruct P as (_ & P). exact P. }
  set (I := fun ts' => length ts' = length ts /\ forall k t t' i, nth_error ts k = Some t ->
              nth_error ts' k = Some t' -> data_get junk CD (t_p t) (t_m t) (t_c t) w = Ok (i, w) ->
              reading i t' /\ same_key t t').
  assert (M : exists ts', srun junk CD schedule (ts, w) = Ok (ts', w) /\ I ts').
  { assert (I0 : I ts).
    { split; [reflexivity|]. intros k t t' i E E' _. assert (t' = t) by congruence. subst t'.
      destruct (H k t E) as (P & _). split; [left; exists 0%nat; split; [exact P|lia]|repeat split]. }
    revert I0. assert (GEN : forall ts1, I ts1 -> exists ts', srun junk CD schedule (ts1, w) = Ok (ts', w) /\ I ts').
    2: { intros I0. now apply GEN. }
    induction schedule as [|k sch IH]; intros ts1 I1.
    - exists ts1. split; [reflexivity|exact I1].
    - rewrite srun_cons. unfold sstep. cbn [fst snd].
      destruct (nth_error ts1 k) as [t1|] eqn:E1; [|cbn [bind]; now apply IH].
      destruct I1 as (L1 & I1).
      assert (X : exists t, nth_error ts k = Some t).
      { destruct (nth_error ts k) as [t|] eqn:E; eauto. apply nth_error_None in E.
        assert (nth_error ts1 k = None) by (apply nth_error_None; lia). congruence. }
      destruct X as (t & E). destruct (G k t E) as (i & Gi).
      destruct (I1 k t t1 i E E1 Gi) as (RD & (K1 & K2 & K3)).
      destruct (hit_first junk _ _ _ w i W Gi) as (HB & HI).
      destruct (reader_step junk CD i t1 w) as (t2 & ST & RD2 & (S1 & S2 & S3)).
      { rewrite K1, K2, K3. exact HB. } { rewrite K1, K2, K3. exact HI. } { exact RD. }
      rewrite ST. cbn [bind]. apply IH. split; [now rewrite set_thread_length|].
      intros k' t' t'' i' E' E'' G'. destruct (Nat.eq_dec k k') as [<-|NE].
      + rewrite (set_thread_same ts1 k t2 t1 E1) in E''. inversion E''; subst t''.
        assert (t' = t) by congruence. subst t'. assert (i' = i) by congruence. subst i'.
        split; [exact RD2|]. repeat split; congruence.
      + rewrite set_thread_other in E'' by exact NE. eapply I1; eauto. }
  destruct M as (ts' & SR & _ & I'). exists ts'. split; [exact SR|].
  intros k t t' i E E' D. destruct (G k t E) as (i0 & G0). destruct (I' k t t' i0 E E' G0) as (RD & _).
  destruct RD as [(j & RD & _)|RD]; rewrite D in RD; [discriminate|]. inversion RD; subst i0. exact G0.
Qed.
Print Assumptions C07_hits.

(** One thread may miss: if the other threads' entries are not the one about to be replaced and its
    new entry does not answer to their keys, every schedule gives every thread its sequential
    result, and leaves the readers' entries alone. *)
Theorem C07_one_writer {F} {N : Num F} (junk : nat -> F * F) ops w ts a ta r schedule :
  run junk CD ops world0 = Ok w ->
  nth_error ts a = Some ta -> t_pc ta = GScan 0 ->
  data_get junk CD (t_p ta) (t_m ta) (t_c ta) w = Ok r ->
  (forall k t, nth_error ts k = Some t -> k <> a -> t_pc t = GScan 0 /\
     (exists i, data_get junk CD (t_p t) (t_m t) (t_c t) w = Ok (i, w) /\ i <> Nat.modulo (w_index w) 60) /\
     forall e, dp_p e = t_p ta -> dp_m e = t_m ta -> dp_c e = t_c ta ->
       key_match (t_p t) (t_m t) (t_c t) e = false) ->
  exists ts' w', srun junk CD schedule (ts, w) = Ok (ts', w') /\
    (forall i, (i <> Nat.modulo (w_index w) 60)%nat -> nth_error (w_slots w') i = nth_error (w_slots w) i) /\
    (forall k t t' i, nth_error ts k = Some t -> nth_error ts' k = Some t' -> t_pc t' = Done i ->
       omap fst (data_get junk CD (t_p t) (t_m t) (t_c t) w) = Ok i) /\
    (forall t' i, nth_error ts' a = Some t' -> t_pc t' = Done i -> r = (i, w')).
Proof.
  intros R Ea Pa Gr H. assert (W : wf w) by (eapply run_wf; [apply wf_world0|exact R]).
  assert (CM : Nat.modulo (w_index w) 60 = cursor w).
  { unfold cursor. destruct W as [_ W]. destruct (Nat.eqb_spec (w_index w) 60) as [->|NE]; [reflexivity|].
    apply Nat.mod_small. lia. }
  rewrite CM in *. clear CM.
  set (I := fun (s : list (thread F) * world F) => length (fst s) = length ts /\
     (exists n ta', nth_error (fst s) a = Some ta' /\ titer junk CD n (ta, w) = Ok (ta', snd s)) /\
     forall k t t' i, k <> a -> nth_error ts k = Some t -> nth_error (fst s) k = Some t' ->
       data_get junk CD (t_p t) (t_m t) (t_c t) w = Ok (i, w) -> reading i t' /\ same_key t t').
  assert (M : exists s', srun junk CD schedule (ts, w) = Ok s' /\ I s').
  { assert (I0 : I (ts, w)).
    { split; [reflexivity|]. split; [exists 0%nat, ta; split; [exact Ea|reflexivity]|].
      cbn [fst]. intros k t t' i NE E E' _. assert (t' = t) by congruence. subst t'.
      destruct (H k t E NE) as (P & _). split; [left; exists 0%nat; split; [exact P|lia]|repeat split]. }
    revert I0. generalize (ts, w). induction schedule as [|k sch IH]; intros [ts1 w1] I1.
    - exists (ts1, w1). split; [reflexivity|exact I1].
    - rewrite srun_cons. unfold sstep. cbn [fst snd].
      destruct (nth_error ts1 k) as [t1|] eqn:E1; [|cbn [bind]; now apply IH].
      destruct I1 as (L1 & (n & ta' & Ea' & Tn) & I1). cbn [fst snd] in *.
      destruct (Nat.eq_dec k a) as [->|NA].
      + replace t1 with ta' in * by congruence.
        destruct (titer_defined junk CD ta w r (S n) W Pa Gr) as ([t2 w2] & TS).
        assert (ST : tstep junk CD ta' w1 = Ok (t2, w2)).
        { rewrite titer_S, Tn in TS. exact TS. }
        rewrite ST. cbn [bind]. apply IH. split; [cbn [fst]; now rewrite set_thread_length|].
        split; cbn [fst snd].
        * exists (S n), t2. split; [eapply set_thread_same; eauto|exact TS].
        * intros k t t' i NE E E' G. rewrite set_thread_other in E' by congruence. eapply I1; eauto.
      + assert (X : exists t, nth_error ts k = Some t).
        { destruct (nth_error ts k) as [t|] eqn:E; eauto. apply nth_error_None in E.
          assert (nth_error ts1 k = None) by (apply nth_error_None; lia). congruence. }
        destruct X as (t & E). destruct (H k t E NA) as (_ & (i & Gi & NC) & FO).
        destruct (I1 k t t1 i NA E E1 Gi) as (RD & (K1 & K2 & K3)).
        destruct (hit_first junk _ _ _ w i W Gi) as (HB & (e & He & Me)).
        assert (PS : w_slots w1 = w_slots w \/ exists e, owns ta e /\ w_slots w1 = set_slot (w_slots w) (cursor w) e).
        { apply (progress_slots ta w (ta', w1) W).
          eapply (progress_titer junk CD calc_keys ta w n); eauto. }
        destruct (reader_step junk CD i t1 w1) as (t2 & ST & RD2 & (S1 & S2 & S3)).
        { rewrite K1, K2, K3. intros j x Hj Ex. destruct PS as [PS|(y & (O1 & O2 & O3) & PS)]; rewrite PS in Ex.
          - now apply (HB j).
          - destruct (Nat.eq_dec (cursor w) j) as [<-|NJ].
            + rewrite set_slot_same in Ex by now apply cursor_in. inversion Ex; subst x. now apply FO.
            + rewrite set_slot_other in Ex by exact NJ. now apply (HB j). }
        { rewrite K1, K2, K3. exists e. split; [|exact Me].
          destruct PS as [PS|(y & _ & PS)]; rewrite PS; [exact He|].
          rewrite set_slot_other by congruence. exact He. }
        { exact RD. }
        rewrite ST. cbn [bind]. apply IH. split; [cbn [fst]; now rewrite set_thread_length|].
        split; cbn [fst snd].
        * exists n, ta'. split; [rewrite set_thread_other by exact NA; exact Ea'|exact Tn].
        * intros k' t' t'' i' NE E' E'' G'. destruct (Nat.eq_dec k k') as [<-|NK].
          -- rewrite (set_thread_same ts1 k t2 t1 E1) in E''. inversion E''; subst t''.
             assert (t' = t) by congruence. subst t'. assert (i' = i) by congruence. subst i'.
             split; [exact RD2|]. repeat split; congruence.
          -- rewrite set_thread_other in E'' by exact NK. eapply I1; eauto. }
  destruct M as ([ts' w'] & SR & _ & (n & ta' & Ea' & Tn) & I'). cbn [fst snd] in *.
  exists ts', w'. split; [exact SR|]. split; [|split].
  - intros i NC. assert (PS : w_slots w' = w_slots w \/ exists e, owns ta e /\ w_slots w' = set_slot (w_slots w) (cursor w) e).
    { apply (progress_slots ta w (ta', w') W).
      eapply (progress_titer junk CD calc_keys ta w n); eauto. }
    destruct PS as [PS|(y & _ & PS)]; rewrite PS; [reflexivity|]. apply set_slot_other. congruence.
  - intros k t t' i E E' D. destruct (Nat.eq_dec k a) as [->|NA].
    + replace t with ta in * by congruence. replace t' with ta' in * by congruence.
      rewrite Gr, (titer_finished junk CD ta w r n ta' w' i W Pa Gr Tn D). reflexivity.
    + destruct (H k t E NA) as (_ & (i0 & G0 & _) & _). destruct (I' k t t' i0 NA E E' G0) as (RD & _).
      destruct RD as [(j & RD & _)|RD]; rewrite D in RD; [discriminate|]. inversion RD; subst i0.
      now rewrite G0.
  - intros t' i E' D. replace t' with ta' in * by congruence.
    now apply (titer_finished junk CD ta w r n ta' w' i W Pa Gr Tn D).
Qed.
Print Assumptions C07_one_writer.

(** ** What goes wrong *)
Local Open Scope R_scope.
Notation tp := (start (proton 10) (water 1) conf).
Notation tc := (start (carbon 10) (water 1) conf).

Lemma rcalc_parts junk k (p : Projectile R) m c : key_ok p m ->
  exists d0 d, CD p m c = Ok d0 /\ with_splines junk k d0 = Ok d /\ rcalc junk CD k p m c = Ok d /\ dp_ok d /\
    dp_p d = p /\ dp_m d = m /\ dp_c d = c /\ dp_range_spline d0 = None.
Proof.
  intros K. destruct (rcalc_total junk k p m c K) as (d & RC & OD).
  destruct (rcalc_key junk CD calc_keys _ _ _ _ _ RC) as (E1 & E2 & E3).
  pose proof RC as RC'. unfold rcalc in RC'. destruct (CD p m c) as [d0|] eqn:C; [|discriminate].
  exists d0, d. repeat (split; [assumption || reflexivity|]).
  unfold calculate_DataPoint in C.
  repeat match type of C with bind ?x _ = _ => destruct x; [|discriminate]; cbn [bind] in C end.
  inversion C. reflexivity.
Qed.
Lemma absent0 (p : Projectile R) m c : legit_p p ->
  existsb (key_match p m c) (w_slots (world0 (F := R))) = false.
Proof.
  intros L. apply not_true_is_false. intros X. apply existsb_exists in X. destruct X as (d & Id & M).
  apply repeat_spec in Id. subst d. rewrite legit_not_default in M by auto with cases. discriminate.
Qed.
Lemma other_key (w : world R) d p m c : wf w ->
  existsb (key_match p m c) (w_slots w) = false -> pA (dp_p d) <> pA p ->
  existsb (key_match p m c) (w_slots (inserted w d)) = false.
Proof.
  intros W A P. apply not_true_is_false. intros X. apply existsb_exists in X. destruct X as (e & Id & M).
  cbn [inserted w_slots] in Id. apply In_nth_error in Id. destruct Id as (j & Id).
  destruct (Nat.eq_dec (cursor w) j) as [<-|NE].
  - rewrite set_slot_same in Id by now apply cursor_in. inversion Id; subst e.
    apply key_match_R in M. destruct M as ((M & _) & _). congruence.
  - rewrite set_slot_other in Id by assumption. apply nth_error_In in Id.
    assert (existsb (key_match p m c) (w_slots w) = true) by (apply existsb_exists; eauto). congruence.
Qed.

(** Thread 0 looks up the proton, thread 1 the carbon.  Thread 0 is interrupted between its
    insertion and its return, and is handed the carbon's entry. *)
Theorem C07_refuted : exists schedule w' e,
  srun junk0 CD schedule ([tp; tc], world0) = Ok ([at_pc tp (Done 1); at_pc tc (Done 1)], w') /\
  nth_error (w_slots w') 1 = Some e /\ dp_p e = carbon 10 /\ dp_p e <> proton 10 /\
  range_table (carbon 10) (water 1) conf = Ok (dp_range e).
Proof.
  destruct (rcalc_parts junk0 0 (proton 10) (water 1) conf) as (a0 & a & _ & _ & RA & _ & PA & _).
  { apply legit_key; auto with cases. }
  destruct (rcalc_parts junk0 3 (carbon 10) (water 1) conf) as (b0 & b & CB & SB & RB & _ & PB & _).
  { apply legit_key; auto with cases. }
  assert (A1 := absent0 (proton 10) (water 1) conf (proton_legit 10)).
  assert (A2 : existsb (key_match (carbon 10) (water 1) conf) (w_slots (inserted world0 a)) = false).
  { apply other_key; [apply wf_world0|apply absent0; auto with cases|]. rewrite PA. simpl. lra. }
  pose proof (wf_inserted world0 a wf_world0) as W1.
  exists (repeat 0 129 ++ repeat 1 130 ++ repeat 0 1)%nat, (inserted (inserted world0 a) b), b.
  split; [|split; [|split; [exact PB|split]]].
  - rewrite srun_app, (srun_repeat junk0 CD 129 _ _ 0 tp) by reflexivity.
    rewrite (to_prev junk0 CD tp world0 a wf_world0 eq_refl A1 RA). cbn [bind fst snd].
    rewrite srun_app, (srun_repeat junk0 CD 130 _ _ 1 tc) by reflexivity.
    rewrite (whole junk0 CD tc (inserted world0 a) W1 eq_refl).
    rewrite (get_absent junk0 CD _ _ _ (inserted world0 a) W1 A2).
    change (w_junk (inserted (world0 (F := R)) a)) with 3%nat. cbn [t_p t_m t_c start].
    rewrite RB. reflexivity.
  - change 1%nat with (cursor (inserted (world0 (F := R)) a)). cbn [inserted w_slots].
    apply set_slot_same. apply (cursor_in (inserted world0 a) W1).
  - rewrite PB. intros X. apply (f_equal pA) in X. simpl in X. lra.
  - assert (T : range_table (carbon 10) (water 1) conf = Ok (dp_range b0)).
    { unfold calculate_DataPoint in CB. destruct (range_table (carbon 10) (water 1) conf); [|discriminate].
      cbn [bind] in CB.
      repeat match type of CB with bind ?x _ = _ => destruct x; [|discriminate]; cbn [bind] in CB end.
      inversion CB. reflexivity. }
    rewrite T. destruct (with_splines_key junk0 3 b0 b SB) as (_ & _ & _ & -> & _). reflexivity.
Qed.
Print Assumptions C07_refuted.

(** Both threads find the index at 0, both write entry 0 and both step the index: one computation is
    lost and both are handed the blank entry 1, whose splines have no table. *)
Theorem C07_lost_entry_refuted : exists schedule w' e,
  srun junk0 CD schedule ([tp; tc], world0) = Ok ([at_pc tp (Done 1); at_pc tc (Done 1)], w') /\
  ~ present (proton 10) (water 1) conf w' /\
  slot w' 1 = Ok e /\ interp_eval (dp_range_spline e) 10 = UB NullDeref.
Proof.
  destruct (rcalc_parts junk0 0 (proton 10) (water 1) conf) as (a0 & a & CA & SA & RA & _ & PA & _).
  { apply legit_key; auto with cases. }
  destruct (rcalc_parts junk0 3 (carbon 10) (water 1) conf) as (b0 & b & CB & SB & RB & _ & PB & _).
  { apply legit_key; auto with cases. }
  assert (A1 := absent0 (proton 10) (water 1) conf (proton_legit 10)).
  assert (A2 := absent0 (carbon 10) (water 1) conf (carbon_legit 10)).
  set (w1 := mkW (set_slot (w_slots (world0 (F := R))) 0 a) 0 (w_default world0) 3).
  set (w2 := mkW (set_slot (w_slots (world0 (F := R))) 0 b) 0 (w_default world0) 6).
  assert (I1 : (w_index w1 < length (w_slots w1))%nat).
  { cbn [w1 w_index w_slots]. rewrite set_slot_length. cbn. lia. }
  exists (repeat 0 124 ++ repeat 1 124 ++ repeat 0 4 ++ repeat 1 4 ++ [0; 1; 0; 1])%nat,
    (with_index 2 w2), DataPoint0.
  split; [|split; [|split; reflexivity]].
  - rewrite srun_app, (srun_repeat junk0 CD 124 _ _ 0 tp) by reflexivity.
    rewrite (to_write junk0 CD tp world0 a0 wf_world0 eq_refl A1 CA). cbn [bind fst snd].
    change (with_index (cursor world0) (world0 (F := R))) with (world0 (F := R)).
    rewrite srun_app, (srun_repeat junk0 CD 124 _ _ 1 tc) by reflexivity.
    rewrite (to_write junk0 CD tc world0 b0 wf_world0 eq_refl A2 CB). cbn [bind fst snd set_thread].
    change (with_index (cursor world0) (world0 (F := R))) with (world0 (F := R)).
    rewrite srun_app, (srun_repeat junk0 CD 4 _ _ 0 (at_pc tp (AWrite a0))) by reflexivity.
    rewrite (write_built junk0 CD tp world0 a0) by (cbn; lia).
    change (w_junk (world0 (F := R))) with 0%nat. rewrite SA. cbn [bind fst snd set_thread].
    change (mkW (set_slot (w_slots world0) (w_index world0) a) (w_index world0) (w_default world0) (0 + 3)) with w1.
    rewrite srun_app, (srun_repeat junk0 CD 4 _ _ 1 (at_pc tc (AWrite b0))) by reflexivity.
    rewrite (write_built junk0 CD tc w1 b0 I1).
    change (w_junk w1) with 3%nat. rewrite SB. cbn [bind fst snd set_thread].
    cbn [w1 w_slots w_index w_default]. rewrite set_slot_twice.
    change (mkW (set_slot (w_slots world0) 0 b) 0 (w_default world0) (3 + 3)) with w2.
    reflexivity.
  - intros (e & Ie & M). change (w_slots (with_index 2 w2)) with (w_slots (inserted (world0 (F := R)) b)) in Ie.
    assert (X : existsb (key_match (proton 10) (water 1) conf) (w_slots (inserted world0 b)) = false).
    { apply other_key; [apply wf_world0|exact A1|]. rewrite PB. simpl. lra. }
    assert (existsb (key_match (proton 10) (water 1) conf) (w_slots (inserted world0 b)) = true)
      by (apply existsb_exists; eauto). congruence.
Qed.
Print Assumptions C07_lost_entry_refuted.

(** Two threads ask for the same key: the second finds the entry after the assignment and before
    its splines are built. *)
Theorem C07_half_built_refuted : exists schedule ts' w' e,
  srun junk0 CD schedule ([tp; tp], world0) = Ok (ts', w') /\
  nth_error ts' 1 = Some (at_pc tp (Done 0)) /\
  slot w' 0 = Ok e /\ dp_p e = proton 10 /\ interp_eval (dp_range_spline e) 10 = UB NullDeref.
Proof.
  destruct (rcalc_parts junk0 0 (proton 10) (water 1) conf) as (a0 & a & CA & SA & RA & _ & _ & _ & _ & NS).
  { apply legit_key; auto with cases. }
  destruct (calc_keys _ _ _ _ CA) as (PA & MA & CC).
  assert (A1 := absent0 (proton 10) (water 1) conf (proton_legit 10)).
  exists (repeat 0 124 ++ [0; 1])%nat, [at_pc tp (ASpline 0); at_pc tp (Done 0)],
    (with_slots (set_slot (w_slots (world0 (F := R))) 0 a0) world0), a0.
  split; [|split; [reflexivity|split; [reflexivity|split; [exact PA|now rewrite NS]]]].
  rewrite srun_app, (srun_repeat junk0 CD 124 _ _ 0 tp) by reflexivity.
  rewrite (to_write junk0 CD tp world0 a0 wf_world0 eq_refl A1 CA). cbn [bind fst snd set_thread].
  change (with_index (cursor world0) (world0 (F := R))) with (world0 (F := R)).
  assert (K : key_match (proton 10) (water 1) conf a0 = true).
  { apply key_match_R. rewrite PA, MA, CC. apply C06_reflexive. }
  rewrite srun_cons.
  change (sstep junk0 CD ([at_pc tp (AWrite a0); tp], world0) 0) with
    (Ok ([at_pc tp (ASpline 0); tp], with_slots (set_slot (w_slots (world0 (F := R))) 0 a0) world0)).
  cbn [bind]. rewrite srun_cons.
  change (sstep junk0 CD ([at_pc tp (ASpline 0); tp], with_slots (set_slot (w_slots (world0 (F := R))) 0 a0) world0) 1)
    with (Ok ([at_pc tp (ASpline 0); at_pc tp (if key_match (proton 10) (water 1) conf a0 then Done 0 else GScan 1)],
          with_slots (set_slot (w_slots (world0 (F := R))) 0 a0) world0)).
  rewrite K. reflexivity.
Qed.
Print Assumptions C07_half_built_refuted.

(** fifty-nine or sixty protons of different masses, then the cache is about to wrap *)
Lemma swept n : (n <= 60)%nat -> exists w,
  run junk0 CD (sweep (map (fun k => 2 + INR k) (seq 0 n))) world0 = Ok w /\ world_ok w /\
  misses junk0 CD (sweep (map (fun k => 2 + INR k) (seq 0 n))) world0 = n.
Proof.
  intros Hn.
  destruct (sweep_misses (map (fun k => 2 + INR k) (seq 0 n)) world0) as (w & RN & OW & MS).
  - apply world_ok0.
  - apply FinFun.Injective_map_NoDup; [|apply seq_NoDup]. intros x y E. apply INR_eq. lra.
  - apply Forall_forall. intros a Ha. apply in_map_iff in Ha. destruct Ha as (k & <- & Hk).
    apply in_seq in Hk. pose proof (pos_INR k). assert (INR k <= INR 60) by (apply le_INR; lia).
    replace (INR 60) with 60 in * by (simpl; lra). lra.
  - intros d' a Id Ia. apply in_map_iff in Ia. destruct Ia as (k & <- & _).
    pose proof (pos_INR k). apply repeat_spec in Id. subst d'. simpl. lra.
  - exists w. split; [exact RN|]. split; [exact OW|]. rewrite MS, map_length, seq_length. reflexivity.
Qed.
Lemma sweep_masses (S' : R -> Prop) l : Forall S' l -> forall w w', wf w ->
  (forall d, In d (w_slots w) -> S' (pA (dp_p d))) -> run junk0 CD (sweep l) w = Ok w' ->
  forall d, In d (w_slots w') -> S' (pA (dp_p d)).
Proof.
  induction 1 as [|a l Ha Hl IH]; intros w w' W H RN.
  - inversion RN; subst w'. exact H.
  - cbn [sweep map] in RN. apply run_cons in RN. destruct RN as (w1 & ST & RN).
    assert (W1 : wf w1) by (eapply wf_step; eauto). apply (IH w1 w' W1); [|exact RN].
    intros d Id. destruct (step_cases junk0 CD w _ w1 W ST) as [(_ & _ & E & _)|[(_ & X & _)|(_ & p & t & c & d' & O & RC & _ & E)]].
    + rewrite E in Id. now apply H.
    + discriminate.
    + subst w1. cbn [inserted w_slots] in Id. apply In_nth_error in Id. destruct Id as (j & Id).
      destruct (Nat.eq_dec (cursor w) j) as [<-|NE].
      * rewrite set_slot_same in Id by now apply cursor_in. inversion Id; subst d.
        destruct (rcalc_key junk0 CD calc_keys _ _ _ _ _ RC) as (-> & _).
        destruct O as [O|O]; inversion O. exact Ha.
      * rewrite set_slot_other in Id by assumption. apply H. eapply nth_error_In; eauto.
Qed.
Lemma swept_absent n w p m c : (n <= 60)%nat -> pA p = 1 \/ pA p = 100 ->
  run junk0 CD (sweep (map (fun k => 2 + INR k) (seq 0 n))) world0 = Ok w ->
  existsb (key_match p m c) (w_slots w) = false.
Proof.
  intros Hn P RN. apply not_true_is_false. intros X. apply existsb_exists in X. destruct X as (d & Id & M).
  apply key_match_R in M. destruct M as ((M & _) & _).
  assert (H : (fun a => a <> 1 /\ a <> 100) (pA (dp_p d))).
  { apply (sweep_masses (fun a => a <> 1 /\ a <> 100)
             (map (fun k => 2 + INR k) (seq 0 n))) with (w := world0) (w' := w); auto.
    - apply Forall_forall. intros a Ha. apply in_map_iff in Ha. destruct Ha as (k & <- & Hk).
      apply in_seq in Hk. pose proof (pos_INR k). assert (INR k <= INR 60) by (apply le_INR; lia).
      replace (INR 60) with 60 in * by (simpl; lra). lra.
    - apply wf_world0.
    - intros d0 I0. apply repeat_spec in I0. subst d0. simpl. lra. }
  cbv beta in H. destruct H. destruct P; congruence.
Qed.

Notation tin := (start (mkProj 100 50 50 10) (water 1) conf).

(** Both threads pass the end-of-storage check when one entry is left; the second then assigns
    through the end iterator.  One after the other they are fine. *)
Theorem C07_overrun_refuted : exists ops w schedule s,
  run junk0 CD ops world0 = Ok w /\
  srun junk0 CD (repeat 0 130 ++ repeat 1 130)%nat ([tp; tin], w) = Ok s /\
  srun junk0 CD schedule ([tp; tin], w) = UB OutOfBounds.
Proof.
  destruct (swept 59) as (w & RN & OW & MS); [lia|].
  pose proof (swept_absent 59 w (proton 10) (water 1) conf ltac:(lia) (or_introl eq_refl) RN) as A1.
  pose proof (swept_absent 59 w (mkProj 100 50 50 10) (water 1) conf ltac:(lia) (or_intror eq_refl) RN) as A2.
  destruct (OW) as (W & _).
  assert (LQ : legit_p (mkProj 100 50 50 10)) by (unfold legit_p; simpl; lra).
  assert (CU : cursor w = 59%nat).
  { destruct (survives junk0 CD (sweep (map (fun k => 2 + INR k) (seq 0 59))) world0 w 59 wf_world0) as (_ & LF);
      try exact RN; try lia.
    - unfold no_reset, sweep. rewrite map_map. intros X. apply in_map_iff in X. destruct X as (k & X & _).
      discriminate.
    - rewrite MS. cbn. lia.
    - symmetry. apply (lifetime_0 w 59 W); [lia|]. rewrite LF, MS. reflexivity. }
  destruct (rcalc_parts junk0 (w_junk w) (proton 10) (water 1) conf) as (a0 & a & CA & SA & RA & _ & PA & _).
  { apply legit_key; auto with cases. }
  destruct (rcalc_parts junk0 (w_junk w + 3) (mkProj 100 50 50 10) (water 1) conf)
    as (b0 & b & CB & SB & RB & _ & PB & _).
  { apply legit_key; auto with cases. }
  assert (G1 : data_get junk0 CD (proton 10) (water 1) conf w = Ok (cursor w, inserted w a)).
  { rewrite (get_absent junk0 CD _ _ _ w W A1), RA. reflexivity. }
  assert (A3 : existsb (key_match (mkProj 100 50 50 10) (water 1) conf) (w_slots (inserted w a)) = false).
  { apply other_key; auto. rewrite PA. simpl. lra. }
  assert (G2 : data_get junk0 CD (mkProj 100 50 50 10) (water 1) conf (inserted w a) =
               Ok (cursor (inserted w a), inserted (inserted w a) b)).
  { rewrite (get_absent junk0 CD _ _ _ (inserted w a) (wf_inserted w a W) A3).
    cbn [inserted w_junk]. rewrite RB. reflexivity. }
  assert (IX : with_index (cursor w) w = w).
  { unfold with_index, cursor in *. destruct (Nat.eqb_spec (w_index w) 60); [discriminate|].
    destruct w; reflexivity. }
  eexists _, w, (repeat 0 124 ++ repeat 1 124 ++ repeat 0 6 ++ repeat 1 1)%nat, _.
  split; [exact RN|]. split; [exact (C07_serial junk0 _ w _ _ _ _ _ _ _ _ _ _ RN G1 G2)|].
  rewrite srun_app, (srun_repeat junk0 CD 124 _ _ 0 tp) by reflexivity.
  rewrite (to_write junk0 CD tp w a0 W eq_refl A1 CA). cbn [bind fst snd set_thread]. rewrite IX.
  rewrite srun_app, (srun_repeat junk0 CD 124 _ _ 1 tin) by reflexivity.
  rewrite (to_write junk0 CD tin w b0 W eq_refl A2 CB). cbn [bind fst snd set_thread].
  rewrite srun_app, (srun_repeat junk0 CD 6 _ _ 0 (at_pc tp (AWrite a0))) by reflexivity.
  rewrite (finish junk0 CD tp w a0 W), SA. cbn [bind fst snd set_thread].
  rewrite (srun_repeat junk0 CD 1 _ _ 1 (at_pc tin (AWrite b0))) by reflexivity.
  cbn [titer fst snd]. unfold tstep. cbn [t_pc at_pc inserted w_index w_slots].
  rewrite set_slot_length, CU, (proj1 W). reflexivity.
Qed.
Print Assumptions C07_overrun_refuted.

(** Even complete lookups one after the other are not enough: the reference thread 0 was given is to
    the oldest entry, and thread 1's insertion replaces it. *)
Theorem C07_reference_refuted : exists ops w t i w' e,
  run junk0 CD ops world0 = Ok w /\ data_get junk0 CD (t_p t) (t_m t) (t_c t) w = Ok (i, w) /\
  srun junk0 CD (repeat 0 130 ++ repeat 1 130)%nat ([t; tp], w) =
    Ok ([at_pc t (Done i); at_pc tp (Done i)], w') /\
  slot w' i = Ok e /\ dp_p e = proton 10 /\ dp_p e <> t_p t.
Proof.
  destruct (swept 60) as (w & RN & OW & MS); [lia|].
  pose proof (swept_absent 60 w (proton 10) (water 1) conf ltac:(lia) (or_introl eq_refl) RN) as A1.
  pose proof RN as RN0. destruct (OW) as (W & _). set (t := start (mkProj 2 1 1 10) (water 1) conf).
  assert (L2 : legit_p (mkProj 2 1 1 10)) by (unfold legit_p; simpl; lra).
  change (sweep (map (fun k => 2 + INR k) (seq 0 60))) with
    (OpGet (mkProj (2 + INR 0) 1 1 10) (water 1) conf :: sweep (map (fun k => 2 + INR k) (seq 1 59))) in RN, MS.
  replace (2 + INR 0) with 2 in RN, MS by (simpl; lra).
  set (h := sweep (map (fun k => 2 + INR k) (seq 1 59))) in *.
  apply run_cons in RN. destruct RN as (w1 & ST & RN).
  destruct (rcalc_parts junk0 0 (mkProj 2 1 1 10) (water 1) conf) as (d0 & d & _ & _ & RD & _ & P1 & P2 & P3 & _).
  { apply legit_key; auto with cases. }
  assert (AB : existsb (key_match (mkProj 2 1 1 10) (water 1) conf) (w_slots (world0 (F := R))) = false)
    by now apply absent0.
  assert (E1 : w1 = inserted world0 d).
  { unfold step in ST. rewrite (get_absent junk0 CD _ _ _ world0 wf_world0 AB) in ST.
    change (w_junk (world0 (F := R))) with 0%nat in ST. rewrite RD in ST. cbn [bind omap snd] in ST.
    inversion ST. reflexivity. }
  assert (MS' : misses junk0 CD h w1 = 59%nat).
  { cbn [misses] in MS. rewrite ST in MS. unfold is_miss in MS. rewrite AB in MS. cbn [negb] in MS. lia. }
  destruct (survives junk0 CD h w1 w 0) as (SV & LF); try exact RN; try lia.
  { subst w1. apply wf_inserted, wf_world0. }
  { unfold no_reset, h, sweep. rewrite map_map. intros X. apply in_map_iff in X. destruct X as (k & X & _).
    discriminate. }
  { rewrite MS'. subst w1. cbn. lia. }
  assert (CU : cursor w = 0%nat).
  { symmetry. apply (lifetime_0 w 0 W); [lia|]. rewrite LF, MS'. subst w1. reflexivity. }
  assert (S0 : nth_error (w_slots w) 0 = Some d).
  { rewrite SV. subst w1. reflexivity. }
  assert (G1 : data_get junk0 CD (mkProj 2 1 1 10) (water 1) conf w = Ok (0%nat, w)).
  { apply get_present. destruct (w_slots w) as [|x l]; [discriminate|]. inversion S0; subst x.
    cbn [find_slot]. replace (key_match (mkProj 2 1 1 10) (water 1) conf d) with true; [reflexivity|].
    symmetry. apply key_match_R. rewrite P1, P2, P3. apply C06_reflexive. }
  destruct (rcalc_parts junk0 (w_junk w) (proton 10) (water 1) conf) as (a0 & a & _ & _ & RA & _ & PA & _).
  { apply legit_key; auto with cases. }
  assert (G2 : data_get junk0 CD (proton 10) (water 1) conf w = Ok (0%nat, inserted w a)).
  { rewrite (get_absent junk0 CD _ _ _ w W A1), RA.
    change (Ok (cursor w, inserted w a) = Ok (0%nat, inserted w a)). now rewrite CU. }
  exists (sweep (map (fun k => 2 + INR k) (seq 0 60))), w, t, 0%nat, (inserted w a), a.
  split; [exact RN0|]. split; [exact G1|].
  split; [exact (C07_serial junk0 _ w _ _ _ _ _ _ _ _ _ _ RN0 G1 G2)|].
  split; [|split; [exact PA|]].
  - unfold slot. cbn [inserted w_slots]. rewrite CU, set_slot_same; [reflexivity|].
    rewrite (proj1 W). lia.
  - rewrite PA. intros X. apply (f_equal pA) in X. simpl in X. lra.
Qed.
Print Assumptions C07_reference_refuted.

(** the hypotheses of C07_hits and C07_one_writer are met by a proton already stored, read by two
    threads, and an ion that is not *)
Example C07_case : exists w r,
  run junk0 CD [OpGet (proton 10) (water 1) conf] world0 = Ok w /\
  (forall k t, nth_error [tp; tp] k = Some t -> t_pc t = GScan 0 /\ present (t_p t) (t_m t) (t_c t) w) /\
  data_get junk0 CD (mkProj 100 50 50 10) (water 1) conf w = Ok r /\ snd r <> w /\
  (forall k t, nth_error [tp; tp; tin] k = Some t -> k <> 2%nat -> t_pc t = GScan 0 /\
     (exists i, data_get junk0 CD (t_p t) (t_m t) (t_c t) w = Ok (i, w) /\ i <> Nat.modulo (w_index w) 60) /\
     forall e, dp_p e = mkProj 100 50 50 10 -> dp_m e = water 1 -> dp_c e = conf ->
       key_match (t_p t) (t_m t) (t_c t) e = false).
Proof.
  assert (LQ : legit_p (mkProj 100 50 50 10)) by (unfold legit_p; simpl; lra).
  destruct (rcalc_parts junk0 0 (proton 10) (water 1) conf) as (a0 & a & _ & _ & RA & _ & PA & MA & CA & _).
  { apply legit_key; auto with cases. }
  destruct (rcalc_parts junk0 3 (mkProj 100 50 50 10) (water 1) conf) as (b0 & b & _ & _ & RB & _).
  { apply legit_key; auto with cases. }
  pose proof (wf_inserted world0 a wf_world0) as W1.
  assert (A2 : existsb (key_match (mkProj 100 50 50 10) (water 1) conf) (w_slots (inserted world0 a)) = false).
  { apply other_key; [apply wf_world0|now apply absent0|]. rewrite PA. simpl. lra. }
  assert (K : key_match (proton 10) (water 1) conf a = true).
  { apply key_match_R. rewrite PA, MA, CA. apply C06_reflexive. }
  assert (G : data_get junk0 CD (proton 10) (water 1) conf (inserted world0 a) = Ok (0%nat, inserted world0 a)).
  { apply get_present. change (w_slots (inserted world0 a)) with (a :: tl (w_slots (inserted (world0 (F := R)) a))).
    cbn [find_slot]. now rewrite K. }
  exists (inserted world0 a), (1%nat, inserted (inserted world0 a) b).
  split; [|split; [|split; [|split]]].
  - unfold run. cbn [ofold step]. rewrite (get_absent junk0 CD _ _ _ world0 wf_world0 (absent0 _ _ _ (proton_legit 10))).
    change (w_junk (world0 (F := R))) with 0%nat. rewrite RA. reflexivity.
  - intros k t E. assert (t = tp) by (destruct k as [|[|k]]; [inversion E; auto|inversion E; auto|]; destruct k; discriminate).
    subst t. split; [reflexivity|]. exists a. split; [|exact K]. left. reflexivity.
  - rewrite (get_absent junk0 CD _ _ _ _ W1 A2). change (w_junk (inserted (world0 (F := R)) a)) with 3%nat.
    rewrite RB. reflexivity.
  - intros X. apply (f_equal w_junk) in X. cbn in X. lia.
  - intros k t E NE.
    assert (t = tp) by (destruct k as [|[|[|k]]]; [inversion E; auto|inversion E; auto|congruence|]; destruct k; discriminate).
    subst t. split; [reflexivity|]. split.
    + exists 0%nat. split; [exact G|]. cbn. lia.
    + intros e E1 _ _. apply not_true_is_false. intros M. apply key_match_R in M. destruct M as ((M & _) & _).
      rewrite E1 in M. simpl in M. lra.
Qed.
