(** * Library calls touch the cache only by looking up their own keys (support for C01-C04) *)
From Coq Require Import ZArith List Bool Lia.
From Verif Require Import Num Structures EnergyTable Spline Integrator Calculations NucData
  Reactions Storage CacheProofs Catima CacheFresh History.
Import ListNotations.

Section Via.
  Context {F : Type} {N : Num F}.
  Variable junk : nat -> F * F.
  Notation run_ := (run junk calculate_DataPoint).
  Notation step_ := (step junk calculate_DataPoint).

  (** only lookups of (p,t,c), at whatever energy and thickness *)
  Definition own (p : Projectile F) (t : Material F) (c : Config F) (o : op F) : Prop :=
    exists e th, o = OpGet (at_T p e) (set_thickness t th) c.
  Definition via p t c (w w' : world F) : Prop :=
    exists h, Forall (own p t c) h /\ run_ h w = Ok w'.

  Lemma via_refl p t c w : via p t c w w.
  Proof. exists []. split; [constructor|reflexivity]. Qed.
  Lemma via_trans p t c w1 w2 w3 : via p t c w1 w2 -> via p t c w2 w3 -> via p t c w1 w3.
  Proof.
    intros (h1 & O1 & R1) (h2 & O2 & R2). exists (h1 ++ h2). split; [apply Forall_app; auto|].
    rewrite run_app, R1. exact R2.
  Qed.
  Lemma at_T_self (p : Projectile F) : at_T p (pT p) = p.
  Proof. now destruct p. Qed.
  Lemma set_thickness_self (t : Material F) : set_thickness t (m_th t) = t.
  Proof. now destruct t. Qed.
  Lemma via_at p t c w w' e th : via (at_T p e) (set_thickness t th) c w w' -> via p t c w w'.
  Proof.
    intros (h & O & R). exists h. split; [|exact R]. rewrite Forall_forall in O |- *.
    intros o Ho. destruct (O o Ho) as (e' & th' & ->). exists e', th'. reflexivity.
  Qed.

  Lemma lookup_via p t c w d w' : lookup junk p t c w = Ok (d, w') -> via p t c w w'.
  Proof.
    unfold lookup. intros H. apply bind_ok in H. destruct H as ([i w1] & G & H).
    apply bind_ok in H. destruct H as (d' & S & H). inversion H; subst.
    exists [OpGet p t c]. split.
    - constructor; [|constructor]. exists (pT p), (m_th t). now rewrite at_T_self, set_thickness_self.
    - unfold run. cbn [ofold step]. rewrite G. reflexivity.
  Qed.

  Ltac walk := repeat match goal with
    | H : bind ?x _ = Ok _ |- _ => apply bind_ok in H; destruct H as (? & ? & H)
    | H : (match ?x with pair _ _ => _ end) = Ok _ |- _ => destruct x
    | H : Ok _ = Ok _ |- _ => inversion H; clear H; subst
    | H : (if ?b then _ else _) = Ok _ |- _ => destruct b
    end.
  Ltac t1 := walk; eauto using via_refl, lookup_via.

  Lemma range_via p t c w r w' : range junk p t c w = Ok (r, w') -> via p t c w w'.
  Proof. unfold range. intros H. t1. Qed.
  Lemma dedx_from_range_via p t c w r w' : dedx_from_range junk p t c w = Ok (r, w') -> via p t c w w'.
  Proof. unfold dedx_from_range. intros H. t1. Qed.
  Lemma dedx_from_range_v_via p l t c w r w' : dedx_from_range_v junk p l t c w = Ok (r, w') -> via p t c w w'.
  Proof. unfold dedx_from_range_v. intros H. t1. Qed.
  Lemma range_straggling_via p T t c w r w' : range_straggling junk p T t c w = Ok (r, w') -> via p t c w w'.
  Proof. unfold range_straggling. intros H. t1. Qed.
  Lemma range_variance_via p T t c w r w' : range_variance junk p T t c w = Ok (r, w') -> via p t c w w'.
  Proof. unfold range_variance. intros H. t1. Qed.
  Lemma domega2de_via p T t c w r w' : domega2de junk p T t c w = Ok (r, w') -> via p t c w w'.
  Proof. unfold domega2de. intros H. t1. Qed.
  Lemma angular_variance_via p t c o w r w' : angular_variance junk p t c o w = Ok (r, w') -> via p t c w w'.
  Proof. unfold angular_variance. intros H. t1. Qed.
  Lemma angular_straggling_via p t c w r w' : angular_straggling junk p t c w = Ok (r, w') -> via p t c w w'.
  Proof. unfold angular_straggling. intros H. walk. eauto using angular_variance_via. Qed.
  Lemma angular_straggling_from_E_via p Tout t c w r w' :
    angular_straggling_from_E junk p Tout t c w = Ok (r, w') -> via p t c w w'.
  Proof.
    unfold angular_straggling_from_E. intros H. walk. eapply via_trans; [eapply lookup_via; eassumption|].
    apply angular_straggling_via in H. rewrite <- (at_T_self p) in H. eapply via_at. exact H.
  Qed.
  Lemma energy_straggling_from_E_via p T Tout t c w r w' :
    energy_straggling_from_E junk p T Tout t c w = Ok (r, w') -> via p t c w w'.
  Proof. unfold energy_straggling_from_E. intros H. t1. Qed.
  Lemma energy_out_via p t c w r w' : energy_out junk p t c w = Ok (r, w') -> via p t c w w'.
  Proof. unfold energy_out. intros H. t1. Qed.
  Lemma energy_out_v_via p l t c w r w' : energy_out_v junk p l t c w = Ok (r, w') -> via p t c w w'.
  Proof. unfold energy_out_v. intros H. t1. Qed.
  Lemma nonreaction_rate_via p t c w r w' : nonreaction_rate junk p t c w = Ok (r, w') -> via p t c w w'.
  Proof. unfold nonreaction_rate. intros H. t1. Qed.
  Lemma w_magnification_via p Ein t c w r w' :
    w_magnification junk p Ein t c w = Ok (r, w') -> via p t c w w'.
  Proof.
    unfold w_magnification. intros H. cbv zeta in H. walk; eauto using via_refl, energy_out_v_via.
  Qed.
  Lemma calculate_via p t c w r w' : calculate junk p t c w = Ok (r, w') -> via p t c w w'.
  Proof.
    unfold calculate. cbv zeta. intros H.
    destruct (_ && _)%bool; [inversion H; apply via_refl|].
    apply bind_ok in H; destruct H as ([d w1] & L & H). apply lookup_via in L.
    apply bind_ok in H; destruct H as (rg & _ & H).
    apply bind_ok in H; destruct H as (dr & _ & H).
    apply bind_ok in H; destruct H as (sv & _ & H).
    destruct (feqb (m_th t) (lit 0)); [inversion H; subst; auto|].
    apply bind_ok in H; destruct H as (Eo & _ & H).
    apply bind_ok in H; destruct H as ([[[[a1 a2] a3] a4] w2] & M & H).
    assert (V2 : via p t c w1 w2).
    { destruct (fltb Eo Ezero); [inversion M; apply via_refl|].
      apply bind_ok in M; destruct M as (x1 & _ & M).
      apply bind_ok in M; destruct M as (x2 & _ & M).
      apply bind_ok in M; destruct M as (x3 & _ & M).
      apply bind_ok in M; destruct M as ([x4 w3] & A & M).
      apply bind_ok in M; destruct M as (x5 & _ & M). inversion M; subst.
      destruct (_ && _)%bool; [eauto using angular_straggling_via|]. inversion A; apply via_refl. }
    apply bind_ok in H; destruct H as ([vx w3] & V3 & H). apply angular_variance_via in V3.
    apply bind_ok in H; destruct H as ([cv w4] & V4 & H). apply angular_variance_via in V4.
    apply bind_ok in H; destruct H as ([sp w5] & V5 & H). apply nonreaction_rate_via in V5.
    inversion H; subst. eauto 6 using via_trans.
  Qed.

  (** a history is made of lookups of the keys of a call *)
  Definition of_call (q : call F) (o : op F) : Prop :=
    (exists k, In k (keys_of q) /\ own (fst (fst k)) (snd (fst k)) (snd k) o) \/
    (q = CReset /\ o = OpReset) \/ (exists c, q = CSetDefault c /\ o = OpConfig c).

  Lemma layers_via p c layers : forall e tot w x w',
    layers_loop junk p c layers e tot w = Ok (x, w') ->
    exists h, Forall (fun o => exists m, In m layers /\ own p m c o) h /\ run_ h w = Ok w'.
  Proof.
    induction layers as [|m layers IH]; intros e tot w x w' H; simpl in H.
    - inversion H; subst. exists []. split; [constructor|reflexivity].
    - apply bind_ok in H; destruct H as ([r w1] & C & H).
      apply bind_ok in H; destruct H as ([y w2] & L & H).
      apply calculate_via in C. destruct C as (h1 & O1 & R1).
      assert (EW : w2 = w') by (destruct y as [[? ?] ?]; now inversion H). subst w2.
      destruct (IH _ _ _ _ _ L) as (h2 & O2 & R2).
      exists (h1 ++ h2). split.
      + apply Forall_app. split.
        * eapply Forall_impl; [|exact O1]. intros o (e' & th & ->). exists m. split; [now left|].
          exists e', th. reflexivity.
        * eapply Forall_impl; [|exact O2]. intros o (m' & Im & O). exists m'. split; [now right|auto].
      + rewrite run_app, R1. exact R2.
  Qed.

  Lemma exec_history q w r w' : exec junk q w = Ok (r, w') ->
    exists h, Forall (of_call q) h /\ run_ h w = Ok w'.
  Proof.
    intros E.
    assert (V : forall p t c, keys_of q = [(p, t, c)] -> via p t c w w' ->
                exists h, Forall (of_call q) h /\ run_ h w = Ok w').
    { intros p t c K (h & O & R). exists h. split; auto. eapply Forall_impl; [|exact O].
      intros o Ho. left. exists (p, t, c). rewrite K. split; [now left|exact Ho]. }
    assert (U : forall (A B : Type) (f : A -> B) (x : outcome (A * world F)) b,
                omap (fun r => (f (fst r), snd r)) x = Ok (b, w') -> exists a, x = Ok (a, w')).
    { intros A B f [[a w1]|] b H; simpl in H; inversion H; subst; eauto. }
    destruct q; simpl exec in E; unfold one in E;
      try (apply (U _ _ (fun r => [r])) in E; destruct E as (a & E));
      try (eapply V; [reflexivity|];
           eauto using range_via, dedx_from_range_via, dedx_from_range_v_via, range_straggling_via,
             range_variance_via, domega2de_via, angular_variance_via, angular_straggling_via,
             angular_straggling_from_E_via, energy_straggling_from_E_via, energy_out_via,
             energy_out_v_via, nonreaction_rate_via; fail).
    - apply (U _ _ (fun r => [fst r; snd r])) in E; destruct E as (a & E).
      eapply V; [reflexivity|]. eauto using w_magnification_via.
    - apply (U _ _ result_list) in E; destruct E as (a & E).
      eapply V; [reflexivity|]. eauto using calculate_via.
    - apply (U _ _ (fun r => concat (map result_list (mr_results r)) ++ result_list (mr_total r))) in E.
      destruct E as (a & E). unfold calculate_layers in E.
      apply bind_ok in E; destruct E as ([x w1] & L & E).
      assert (EW : w1 = w') by (destruct x as [[? ?] ?]; now inversion E). subst w1.
      apply layers_via in L. destruct L as (h & O & R). exists h. split; auto.
      eapply Forall_impl; [|exact O]. intros o (m & Im & Ho). left. exists (p, m, c). split; auto.
      simpl. apply in_map_iff. eauto.
    - inversion E; subst. exists [OpReset]. split; [|reflexivity]. constructor; [|constructor]. right; left; auto.
    - inversion E; subst. exists [OpConfig c]. split; [|reflexivity]. constructor; [|constructor]. right; right; eauto.
  Qed.

  Lemma exec_all_history h : forall w w', exec_all junk h w = Ok w' ->
    exists ops, Forall (fun o => exists q, In q h /\ of_call q o) ops /\ run_ ops w = Ok w'.
  Proof.
    induction h as [|q h IH]; intros w w' E.
    - unfold exec_all in E; simpl in E. inversion E; subst. exists []. split; [constructor|reflexivity].
    - unfold exec_all in E; simpl in E. apply bind_ok in E. destruct E as (w1 & E1 & E2).
      destruct (exec junk q w) as [[r w2]|] eqn:EQ; simpl in E1; [|discriminate]. inversion E1; subst w2.
      destruct (exec_history _ _ _ _ EQ) as (h1 & O1 & R1).
      destruct (IH _ _ E2) as (h2 & O2 & R2).
      exists (h1 ++ h2). split.
      + apply Forall_app. split.
        * eapply Forall_impl; [|exact O1]. intros o Ho. exists q. split; [now left|auto].
        * eapply Forall_impl; [|exact O2]. intros o (q' & I & Ho). exists q'. split; [now right|auto].
      + rewrite run_app, R1. exact R2.
  Qed.

  (** ** All lookups of one key together insert at most once *)
  Lemma key_match_own p t c e th (d : DataPoint F) :
    key_match (at_T p e) (set_thickness t th) c d = key_match p t c d.
  Proof. reflexivity. Qed.

  Lemma own_hits p t c h : forall w w', wf w -> Forall (own p t c) h ->
    existsb (key_match p t c) (w_slots w) = true -> run_ h w = Ok w' -> w' = w.
  Proof.
    induction h as [|o h IH]; intros w w' W O P R.
    - unfold run in R. simpl in R. congruence.
    - inversion O as [|? ? (e & th & ->) O']; subst.
      apply run_cons in R. destruct R as (w1 & S & R). simpl in S.
      destruct (existsb_key_find _ _ _ _ P) as (i & E).
      rewrite (get_present junk calculate_DataPoint _ _ _ w i) in S by exact E.
      simpl in S. inversion S; subst. eauto.
  Qed.

  Lemma via_once p t c w w' : wf w -> self_key p t c -> via p t c w w' ->
    w' = w \/ (existsb (key_match p t c) (w_slots w) = false /\
               exists d, w' = inserted w d /\ key_match p t c d = true).
  Proof.
    intros W (SP & SM & SC) (h & O & R). destruct h as [|o h].
    { unfold run in R; simpl in R. left; congruence. }
    inversion O as [|? ? (e & th & ->) O']; subst.
    destruct (existsb (key_match p t c) (w_slots w)) eqn:P.
    { left. exact (own_hits p t c _ w w' W O P R). }
    right. split; auto. apply run_cons in R. destruct R as (w1 & S & R). simpl in S.
    rewrite get_absent in S by assumption.
    destruct (rcalc junk calculate_DataPoint (w_junk w) (at_T p e) (set_thickness t th) c) as [d|] eqn:RC;
      simpl in S; [|discriminate].
    inversion S; subst w1. fold (inserted w d) in R.
    exists d.
    assert (M : key_match p t c d = true).
    { destruct (rcalc_key junk calculate_DataPoint calc_keys _ _ _ _ _ RC) as (EP & EM & EC).
      unfold key_match. rewrite EP, EM, EC.
      change (proj_eqb p p && mat_eqb t t && config_eqb c c = true)%bool.
      now rewrite SP, SM, SC. }
    split; auto. eapply own_hits; [apply wf_inserted; auto|exact O'| |exact R].
    apply existsb_exists. exists d. split; auto. simpl.
    eapply nth_error_In with (n := cursor w). apply set_slot_same. now apply cursor_in.
  Qed.
End Via.

(** ** Invariant of the slots along a history *)
Section InvHistory.
  Context {F : Type} {N : Num F}.
  Variable junk : nat -> F * F.
  Variable K : Projectile F -> Material F -> Config F -> Prop.
  Hypothesis K_th : forall p t c th, K p t c -> K p (set_thickness t th) c.
  Hypothesis K_T : forall p t c e, K p t c -> K (at_T p e) t c.

  Definition keys_in (q : call F) : Prop :=
    Forall (fun k => K (fst (fst k)) (snd (fst k)) (snd k)) (keys_of q).

  Lemma inv_step w o w' : inv junk K w ->
    (forall p t c, o = OpGet p t c \/ o = OpAdd p t c -> K p t c) ->
    step junk calculate_DataPoint w o = Ok w' -> inv junk K w'.
  Proof.
    intros [W V] HK S. split; [eapply wf_step; eauto|].
    destruct (step_cases junk calculate_DataPoint _ _ _ W S)
      as [(_ & _ & -> & _)|[(_ & _ & ->)|(_ & p & t & c & d & O & R & _ & ->)]]; auto.
    - apply (inv_reset junk K).
    - simpl. apply Forall_set_slot; auto. right.
      destruct (rcalc_key junk calculate_DataPoint calc_keys _ _ _ _ _ R) as (EP & EM & EC).
      rewrite EP, EM, EC. split; [now apply HK|]. exists (w_junk w). now rewrite EP, EM, EC.
  Qed.

  Lemma inv_run h : forall w w', inv junk K w ->
    Forall (fun o => forall p t c, o = OpGet p t c \/ o = OpAdd p t c -> K p t c) h ->
    run junk calculate_DataPoint h w = Ok w' -> inv junk K w'.
  Proof.
    induction h as [|o h IH]; intros w w' I O R.
    - unfold run in R; simpl in R; congruence.
    - inversion O; subst. apply run_cons in R. destruct R as (w1 & S & R).
      eauto using inv_step.
  Qed.

  Lemma inv_exec_all h w w' : inv junk K w -> Forall keys_in h ->
    exec_all junk h w = Ok w' -> inv junk K w'.
  Proof.
    intros I O E. apply exec_all_history in E. destruct E as (ops & OO & R).
    eapply inv_run; [exact I| |exact R]. eapply Forall_impl; [|exact OO].
    intros o (q & Iq & [(k & Ik & e & th & ->)|[(-> & ->)|(c0 & -> & ->)]]) p t c [E|E];
      inversion E; subst.
    eapply Forall_forall in O; [|exact Iq]. unfold keys_in in O. eapply Forall_forall in O; [|exact Ik].
    auto.
  Qed.
End InvHistory.

(** ** C01, general form *)
Section Unobservable2.
  Context {F : Type} {N : Num F}.
  Variable junk : nat -> F * F.
  Hypothesis junk_const : forall k, junk k = junk 0%nat.
  Variable K : Projectile F -> Material F -> Config F -> Prop.
  Hypothesis K_exact : forall p t c p' t' c', K p t c -> K p' t' c' ->
    proj_eqb p' p = true -> mat_eqb t' t = true -> config_eqb c' c = true ->
    same_data p t c p' t' c'.
  Hypothesis K_th : forall p t c th, K p t c -> K p (set_thickness t th) c.
  Hypothesis K_T : forall p t c e, K p t c -> K (at_T p e) t c.

  Lemma call_unobservable2 (exact_sfac : Prop)
    (K_sfac : exact_sfac -> forall p t c p' t' c', K p t c -> K p' t' c' ->
      config_eqb c' c = true -> c_sfac c = c_sfac c') h q w :
    Forall (keys_in K) h -> call_ok K exact_sfac q -> exec_all junk h world0 = Ok w ->
    omap fst (exec junk q w) = omap fst (exec junk q (data_reset w)).
  Proof.
    intros OH OQ E.
    pose proof (inv_exec_all junk K K_th K_T h world0 w (inv_world0 junk K) OH E) as I.
    assert (A : alike junk K w (data_reset w)).
    { split; auto. split; [apply inv_reset|reflexivity]. }
    pose proof (exec_alike junk junk_const K K_exact exact_sfac K_sfac K_th K_T q _ _ OQ A) as S.
    destruct (exec junk q w) as [[r1 w1]|], (exec junk q (data_reset w)) as [[r2 w2]|]; simpl in *;
      try contradiction; [|congruence].
    destruct S as [S _]. simpl in S. congruence.
  Qed.

  Lemma call_two_histories (exact_sfac : Prop)
    (K_sfac : exact_sfac -> forall p t c p' t' c', K p t c -> K p' t' c' ->
      config_eqb c' c = true -> c_sfac c = c_sfac c') h1 h2 q w1 w2 :
    Forall (keys_in K) h1 -> Forall (keys_in K) h2 -> call_ok K exact_sfac q ->
    exec_all junk h1 world0 = Ok w1 -> exec_all junk h2 world0 = Ok w2 -> w_default w1 = w_default w2 ->
    omap fst (exec junk q w1) = omap fst (exec junk q w2).
  Proof.
    intros O1 O2 OQ E1 E2 D.
    pose proof (inv_exec_all junk K K_th K_T h1 world0 w1 (inv_world0 junk K) O1 E1) as I1.
    pose proof (inv_exec_all junk K K_th K_T h2 world0 w2 (inv_world0 junk K) O2 E2) as I2.
    assert (A : alike junk K w1 w2) by (split; [|split]; auto).
    pose proof (exec_alike junk junk_const K K_exact exact_sfac K_sfac K_th K_T q _ _ OQ A) as S.
    destruct (exec junk q w1) as [[r1 v1]|], (exec junk q w2) as [[r2 v2]|]; simpl in *;
      try contradiction; [|congruence].
    destruct S as [S _]. simpl in S. congruence.
  Qed.
End Unobservable2.

(** ** The tables handed out, for any leftovers in the splines *)
Section Tables.
  Context {F : Type} {N : Num F}.
  Variable junk : nat -> F * F.
  Variable K : Projectile F -> Material F -> Config F -> Prop.
  Hypothesis K_exact : forall p t c p' t' c', K p t c -> K p' t' c' ->
    proj_eqb p' p = true -> mat_eqb t' t = true -> config_eqb c' c = true ->
    same_data p t c p' t' c'.
  Hypothesis K_th : forall p t c th, K p t c -> K p (set_thickness t th) c.
  Hypothesis K_T : forall p t c e, K p t c -> K (at_T p e) t c.

  Lemma rcalc_tables k p t c d : rcalc junk calculate_DataPoint k p t c = Ok d ->
    range_table p t c = Ok (dp_range d) /\ straggling_table p t c = Ok (dp_rs d) /\
    angular_table p t c = Ok (dp_av d).
  Proof.
    intros R. unfold rcalc in R. apply bind_ok in R. destruct R as (d1 & R1 & R2).
    destruct (with_splines_key junk _ _ _ R2) as (_ & _ & _ & -> & -> & ->).
    unfold calculate_DataPoint in R1.
    apply bind_ok in R1; destruct R1 as (r & Q1 & R1).
    apply bind_ok in R1; destruct R1 as (a & Q2 & R1).
    apply bind_ok in R1; destruct R1 as (s & Q3 & R1). inversion R1; subst; simpl; auto.
  Qed.

  Lemma lookup_tables2 h w p t c d w' :
    Forall (keys_in K) h -> exec_all junk h world0 = Ok w -> K p t c ->
    key_match p t c DataPoint0 = false ->
    lookup junk p t c w = Ok (d, w') ->
    range_table p t c = Ok (dp_range d) /\ straggling_table p t c = Ok (dp_rs d) /\
    (c_sfac (dp_c d) = c_sfac c -> angular_table p t c = Ok (dp_av d)).
  Proof.
    intros OH E HK ND L.
    pose proof (inv_exec_all junk K K_th K_T h world0 w (inv_world0 junk K) OH E) as [W V].
    unfold lookup in L.
    destruct (get_spec junk calculate_DataPoint w p t c W) as
      [(i & e & G & Hi & EI & M)|(NM & [(why & R & G)|(d' & R & G & EI)])].
    - rewrite G in L; cbn [bind] in L. unfold slot in L. rewrite EI in L. cbn [bind] in L.
      inversion L; subst. eapply Forall_forall in V; [|eapply nth_error_In; exact EI].
      destruct V as [->|[KE (k & CE)]]; [congruence|].
      unfold key_match in M. apply andb_prop in M. destruct M as [M M3].
      apply andb_prop in M. destruct M as [M1 M2].
      pose proof (K_exact _ _ _ _ _ _ HK KE M1 M2 M3) as S.
      destruct (rcalc_tables _ _ _ _ _ CE) as (A1 & A2 & A3).
      rewrite (range_table_same _ _ _ _ _ _ S), (straggling_table_same _ _ _ _ _ _ S).
      split; [assumption|]. split; [assumption|]. intros X. rewrite (angular_table_same _ _ _ _ _ _ S (eq_sym X)). assumption.
    - rewrite G in L. discriminate.
    - rewrite G in L; cbn [bind] in L. unfold slot in L. rewrite EI in L. cbn [bind] in L.
      inversion L; subst. destruct (rcalc_tables _ _ _ _ _ R) as (A1 & A2 & A3). auto.
  Qed.
End Tables.
