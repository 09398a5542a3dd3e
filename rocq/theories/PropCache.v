(** * Properties C01-C04, C06: the table cache *)
From Coq Require Import ZArith Reals List Bool Lra Lia Floats FinFun.
From Verif Require Import Num NumR NumF Structures EnergyTable Spline Integrator Calculations NucData
  Reactions Storage Catima CacheProofs CacheFresh History KeyEq ApiCache BoundsProofs TotalProofs
  ApiTotal Cases.
Import ListNotations.
Local Open Scope R_scope.

(** ** C01 *)

(** every history of calls: the range and straggling tables handed out are the freshly computed
    ones, whatever the spline construction found in its uninitialised elements *)
Theorem C01_tables (junk : nat -> R * R) h w p t c d w' :
  exec_all junk h world0 = Ok w ->
  ~ key_equiv Projectile0 Material0 Config0 p t c ->
  lookup junk p t c w = Ok (d, w') ->
  range_table p t c = Ok (dp_range d) /\ straggling_table p t c = Ok (dp_rs d).
Proof.
  intros E ND L.
  destruct (lookup_tables2 junk (fun _ _ _ => True)) with (h := h) (w := w) (p := p) (t := t) (c := c)
    (d := d) (w' := w') as (A & B & _); auto.
  - intros. apply (key_exact (fun _ => True)); auto using R_eqb_eq;
      unfold good_key; repeat split; auto; now apply Forall_forall.
  - apply Forall_forall. intros q _. now apply Forall_forall.
  - apply not_true_is_false. intros M. apply ND. now apply key_match_R in M.
Qed.
Print Assumptions C01_tables.

(** the angular table too, if no earlier call used a config whose scattering factor is different
    but within 1e-3 *)
Theorem C01_angular_table (junk : nat -> R * R) h w p t c d w' :
  exec_all junk h world0 = Ok w ->
  ~ key_equiv Projectile0 Material0 Config0 p t c ->
  (forall q k, In q h -> In k (keys_of q) -> Rabs (c_sfac (snd k) - c_sfac c) <= 1 / 1000 ->
               c_sfac (snd k) = c_sfac c) ->
  lookup junk p t c w = Ok (d, w') ->
  angular_table p t c = Ok (dp_av d).
Proof.
  intros E ND HS L.
  set (K := fun (_ : Projectile R) (_ : Material R) (c' : Config R) =>
              Rabs (c_sfac c' - c_sfac c) <= 1 / 1000 -> c_sfac c' = c_sfac c).
  assert (KE : forall p t c p' t' c', K p t c -> K p' t' c' ->
    proj_eqb p' p = true -> mat_eqb t' t = true -> config_eqb c' c = true ->
    same_data p t c p' t' c').
  { intros. apply (key_exact (fun _ => True)); auto using R_eqb_eq;
      unfold good_key; repeat split; auto; now apply Forall_forall. }
  assert (KT : forall p t c th, K p t c -> K p (set_thickness t th) c) by (intros; assumption).
  assert (KP : forall p t c e, K p t c -> K (at_T p e) t c) by (intros; assumption).
  assert (KH : Forall (keys_in K) h).
  { apply Forall_forall. intros q Hq. apply Forall_forall. intros k Hk. exact (HS q k Hq Hk). }
  assert (KC : K p t c) by (intros _; reflexivity).
  assert (NM : key_match p t c DataPoint0 = false).
  { apply not_true_is_false. intros M. apply ND. now apply key_match_R in M. }
  destruct (lookup_tables2 junk K KE KT KP h w p t c d w' KH E KC NM L) as (_ & _ & A).
  apply A. clear A.
  pose proof (inv_exec_all junk K KT KP h world0 w (inv_world0 junk K) KH E) as [W V].
  unfold lookup in L.
  destruct (get_spec junk calculate_DataPoint w p t c W) as
      [(i & e & G & Hi & EI & M)|(_ & [(why & R & G)|(d' & R & G & EI)])];
    rewrite G in L; cbn [bind] in L; try discriminate; unfold slot in L; rewrite EI in L;
    cbn [bind] in L; inversion L; subst.
  - eapply Forall_forall in V; [|eapply nth_error_In; exact EI].
    destruct V as [->|[KD _]]; [congruence|]. apply KD.
    apply key_match_R in M. destruct M as (_ & _ & M). apply M.
  - destruct (rcalc_key junk calculate_DataPoint calc_keys _ _ _ _ _ R) as (_ & _ & ->). reflexivity.
Qed.
Print Assumptions C01_angular_table.

(** the numbers returned by a call do not depend on the history (same leftovers in every spline
    construction): every call except calculate with the tabulated angular scattering *)
Theorem C01_unobservable (junk : nat -> R * R) h q w :
  (forall k, junk k = junk 0%nat) ->
  exec_all junk h world0 = Ok w ->
  (forall k, In k (keys_of q) ->
     ~ key_equiv Projectile0 Material0 Config0 (fst (fst k)) (snd (fst k)) (snd k)) ->
  needs_angular q = false ->
  omap fst (exec junk q w) = omap fst (exec junk q (data_reset w)).
Proof.
  intros J E ND NA.
  apply (call_unobservable2 junk J (fun _ _ _ => True)) with (exact_sfac := False) (h := h); auto.
  - intros. apply (key_exact (fun _ => True)); auto using R_eqb_eq;
      unfold good_key; repeat split; auto; now apply Forall_forall.
  - contradiction.
  - apply Forall_forall. intros q' _. now apply Forall_forall.
  - split; [|congruence]. apply Forall_forall. intros k Hk. split; auto.
    apply not_true_is_false. intros M. apply (ND k Hk). now apply key_match_R in M.
Qed.
Print Assumptions C01_unobservable.

(** every call, when scattering factors in use are equal or differ by more than 1e-3 *)
Theorem C01_unobservable_angular (junk : nat -> R * R) h q w :
  (forall k, junk k = junk 0%nat) ->
  exec_all junk h world0 = Ok w ->
  (forall k, In k (keys_of q) ->
     ~ key_equiv Projectile0 Material0 Config0 (fst (fst k)) (snd (fst k)) (snd k)) ->
  (forall q1 q2 k1 k2, In q1 (q :: h) -> In q2 (q :: h) -> In k1 (keys_of q1) -> In k2 (keys_of q2) ->
     Rabs (c_sfac (snd k1) - c_sfac (snd k2)) <= 1 / 1000 -> c_sfac (snd k1) = c_sfac (snd k2)) ->
  omap fst (exec junk q w) = omap fst (exec junk q (data_reset w)).
Proof.
  intros J E ND HS.
  set (K := fun (_ : Projectile R) (_ : Material R) (c : Config R) =>
              exists q' k, In q' (q :: h) /\ In k (keys_of q') /\ c_sfac c = c_sfac (snd k)).
  apply (call_unobservable2 junk J K) with (exact_sfac := True) (h := h); auto.
  - intros. apply (key_exact (fun _ => True)); auto using R_eqb_eq;
      unfold good_key; repeat split; auto; now apply Forall_forall.
  - intros _ p t c p' t' c' (q1 & k1 & I1 & J1 & E1) (q2 & k2 & I2 & J2 & E2) M.
    apply config_eqb_R in M. rewrite E1, E2. apply (HS q1 q2 k1 k2); auto.
    rewrite <- E1, <- E2, Rabs_minus_sym. apply M.
  - apply Forall_forall. intros q' Hq. apply Forall_forall. intros k Hk. exists q', k. simpl. auto.
  - split; auto. apply Forall_forall. intros k Hk. split.
    + exists q, k. simpl; auto.
    + apply not_true_is_false. intros M. apply (ND k Hk). now apply key_match_R in M.
Qed.
Print Assumptions C01_unobservable_angular.

(** two processes with different histories and the same default_config give the same numbers *)
Theorem C01_two_histories (junk : nat -> R * R) h1 h2 q w1 w2 :
  (forall k, junk k = junk 0%nat) ->
  exec_all junk h1 world0 = Ok w1 -> exec_all junk h2 world0 = Ok w2 -> w_default w1 = w_default w2 ->
  (forall k, In k (keys_of q) ->
     ~ key_equiv Projectile0 Material0 Config0 (fst (fst k)) (snd (fst k)) (snd k)) ->
  (forall q1 q2 k1 k2, In q1 (q :: h1 ++ h2) -> In q2 (q :: h1 ++ h2) -> In k1 (keys_of q1) -> In k2 (keys_of q2) ->
     Rabs (c_sfac (snd k1) - c_sfac (snd k2)) <= 1 / 1000 -> c_sfac (snd k1) = c_sfac (snd k2)) ->
  omap fst (exec junk q w1) = omap fst (exec junk q w2).
Proof.
  intros J E1 E2 D ND HS.
  set (K := fun (_ : Projectile R) (_ : Material R) (c : Config R) =>
              exists q' k, In q' (q :: h1 ++ h2) /\ In k (keys_of q') /\ c_sfac c = c_sfac (snd k)).
  assert (KI : forall h, incl h (q :: h1 ++ h2) -> Forall (keys_in K) h).
  { intros h I. apply Forall_forall. intros q' Hq. apply Forall_forall. intros k Hk. exists q', k. split; [apply I, Hq|]. auto. }
  apply (call_two_histories junk J K) with (exact_sfac := True) (h1 := h1) (h2 := h2); auto.
  - intros. apply (key_exact (fun _ => True)); auto using R_eqb_eq;
      unfold good_key; repeat split; auto; now apply Forall_forall.
  - intros _ p t c p' t' c' (q1 & k1 & I1 & J1 & F1) (q2 & k2 & I2 & J2 & F2) M.
    apply config_eqb_R in M. rewrite F1, F2. apply (HS q1 q2 k1 k2); auto.
    rewrite <- F1, <- F2, Rabs_minus_sym. apply M.
  - apply KI. intros x Hx. right. apply in_or_app. auto.
  - apply KI. intros x Hx. right. apply in_or_app. auto.
  - split; auto. apply Forall_forall. intros k Hk. split.
    + exists q, k. simpl; auto.
    + apply not_true_is_false. intros M. apply (ND k Hk). now apply key_match_R in M.
Qed.
Print Assumptions C01_two_histories.

(** the same in binary64, for any libm: the numbers in the keys must not be the negative zero *)
Definition float_keys (q : call float) : Prop :=
  Forall (fun k => good_key not_negzero (fst (fst k)) (snd (fst k)) (snd k)) (keys_of q).
Theorem C01_unobservable_binary64 (lm : Libm) (junk : nat -> float * float) h q w :
  (forall k, junk k = junk 0%nat) ->
  exec_all (N := NumF lm) junk h (world0 (N := NumF lm)) = Ok w ->
  Forall float_keys (q :: h) ->
  (forall k, In k (keys_of q) ->
     key_match (N := NumF lm) (fst (fst k)) (snd (fst k)) (snd k) (DataPoint0 (N := NumF lm)) = false) ->
  needs_angular q = false ->
  omap fst (exec (N := NumF lm) junk q w) =
  omap fst (exec (N := NumF lm) junk q (data_reset (N := NumF lm) w)).
Proof.
  intros J E FK ND NA. inversion FK; subst.
  apply (call_unobservable2 (N := NumF lm) junk J (good_key not_negzero)) with (exact_sfac := False) (h := h); auto.
  - intros. apply (key_exact (N := NumF lm) not_negzero); auto. apply F_eqb_eq.
  - contradiction.
  - split; [|congruence]. apply Forall_forall. intros k Hk. split; auto.
    unfold float_keys in H1. rewrite Forall_forall in H1. auto.
Qed.
Print Assumptions C01_unobservable_binary64.

(** the hypotheses are met: four keys looked up, then the range of 50 MeV protons in water is asked *)
Example C01_case : exists w r,
  exec_all junk0 history1 world0 = Ok w /\
  ~ key_equiv Projectile0 Material0 Config0 (proton 50) (water 3) conf /\
  needs_angular (CRange (proton 50) (water 3) conf) = false /\
  omap fst (exec junk0 (CRange (proton 50) (water 3) conf) w) = Ok r /\
  omap fst (exec junk0 (CRange (proton 50) (water 3) conf) (data_reset w)) = Ok r.
Proof.
  destruct history1_total as (w & E & O).
  destruct (simple_total junk0 (CRange (proton 50) (water 3) conf) w) as (r & w' & X & _); auto.
  { exact I. }
  { eapply legit_one; [reflexivity| |]; auto with cases. }
  assert (ND : ~ key_equiv Projectile0 Material0 Config0 (proton 50) (water 3) conf).
  { intros ((_ & H & _) & _). cbn in H. lra. }
  exists w, r. split; auto. split; auto. split; [reflexivity|].
  split; [now rewrite X|].
  rewrite <- (C01_unobservable junk0 history1 (CRange (proton 50) (water 3) conf) w); auto.
  - now rewrite X.
  - intros k [<-|[]]. exact ND.
Qed.

(** ** C02 *)

(** every state reachable by library calls is reached by lookups of the keys of these calls *)
Theorem C02_api_is_lookups {F} {N : Num F} (junk : nat -> F * F) h w :
  exec_all junk h world0 = Ok w ->
  exists ops, run junk calculate_DataPoint ops world0 = Ok w /\
    forall o, In o ops ->
      o = OpReset \/ (exists c, o = OpConfig c) \/
      exists q p t c, In q h /\ In (p, t, c) (keys_of q) /\
        exists e th, o = OpGet (at_T p e) (set_thickness t th) c.
Proof.
  intros E. apply exec_all_history in E. destruct E as (ops & O & R). exists ops. split; auto.
  intros o Ho. eapply Forall_forall in O; [|exact Ho].
  destruct O as (q & Iq & [([[p t] c] & Ik & e & th & ->)|[(_ & ->)|(c & _ & ->)]]); eauto.
  right; right. exists q, p, t, c. eauto 6.
Qed.
Print Assumptions C02_api_is_lookups.

(** lookups are total over the 60 slots, for every arithmetic *)
Theorem C02_lookup {F} {N : Num F} (junk : nat -> F * F) ops w p t c :
  run junk calculate_DataPoint ops world0 = Ok w ->
  length (w_slots w) = 60%nat /\
  match data_get junk calculate_DataPoint p t c w with
  | Ok (i, w') =>
      length (w_slots w') = 60%nat /\ (i < 60)%nat /\
      exists e, nth_error (w_slots w') i = Some e /\
        ((w' = w /\ key_match p t c e = true) \/
         (~ present p t c w /\ dp_p e = p /\ dp_m e = t /\ dp_c e = c /\
          range_table p t c = Ok (dp_range e) /\ straggling_table p t c = Ok (dp_rs e) /\
          angular_table p t c = Ok (dp_av e)))
  | UB why =>
      (* only computing the tables of an absent key can fail *)
      ~ present p t c w /\
      bind (calculate_DataPoint p t c) (with_splines junk (w_junk w)) = UB why
  end.
Proof.
  intros R. assert (W : wf w) by (eapply run_wf; [apply wf_world0|exact R]).
  split; [apply W|].
  assert (NP : (forall e, In e (w_slots w) -> key_match p t c e = false) -> ~ present p t c w).
  { intros H (e & Ie & M). rewrite H in M by assumption. discriminate. }
  destruct (get_spec junk calculate_DataPoint w p t c W) as
      [(i & e & G & Hi & EI & M)|(NM & [(why & RC & G)|(d' & RC & G & EI)])]; rewrite G.
  - split; [apply W|]. split; auto. exists e. auto.
  - auto.
  - assert (W' := wf_inserted w d' W). split; [apply W'|]. split; [now apply cursor_lt|].
    exists d'. split; [exact EI|]. right. split; auto.
    destruct (rcalc_key junk calculate_DataPoint calc_keys _ _ _ _ _ RC) as (-> & -> & ->).
    split; auto. split; auto. split; auto. exact (rcalc_tables junk _ _ _ _ _ RC).
Qed.
Print Assumptions C02_lookup.

(** asking twice: nothing changes, the same slot is returned *)
Theorem C02_twice (junk : nat -> R * R) ops w p t c i w' :
  run junk calculate_DataPoint ops world0 = Ok w ->
  data_get junk calculate_DataPoint p t c w = Ok (i, w') ->
  data_get junk calculate_DataPoint p t c w' = Ok (i, w').
Proof.
  intros R G. eapply (get_twice junk calculate_DataPoint calc_keys); [| |exact G].
  - eapply run_wf; [apply wf_world0|exact R].
  - repeat split.
    + now apply proj_eqb_R.
    + apply mat_eqb_R. rewrite Rminus_eq_0, Rabs_R0. repeat split; lra.
    + apply config_eqb_R. rewrite Rminus_eq_0, Rabs_R0. repeat split; lra.
Qed.
Print Assumptions C02_twice.

Example C02_case : exists w i w' d,
  exec_all junk0 history1 world0 = Ok w /\
  data_get junk0 calculate_DataPoint (carbon 10) (water 1) conf w = Ok (i, w') /\
  nth_error (w_slots w') i = Some d /\ dp_range_spline d <> None.
Proof.
  destruct history1_total as (w & E & O).
  destruct (lookup_total junk0 (carbon 10) (water 1) conf w) as (d & w' & L & OD & _); auto with cases.
  unfold lookup in L. destruct (data_get junk0 calculate_DataPoint (carbon 10) (water 1) conf w)
    as [[i w1]|] eqn:G; cbn [bind] in L; [|discriminate].
  unfold slot in L. destruct (nth_error (w_slots w1) i) as [e|] eqn:N1; cbn [bind] in L; [|discriminate].
  inversion L; subst. exists w, i, w', d. repeat (split; auto).
  destruct OD as (s1 & s2 & s3 & -> & _). discriminate.
Qed.

(** ** C03 *)
Lemma window_run {F} {N : Num F} (junk : nat -> F * F) ops w :
  run junk calculate_DataPoint ops world0 = Ok w -> wf w /\ window w.
Proof.
  intros R. apply (run_inv junk calculate_DataPoint (fun w => window w)) with (h := ops) (w := world0); auto.
  - intros; eapply (window_step junk calculate_DataPoint calc_keys); eauto.
  - apply wf_world0.
  - exact (window_reset world0).
Qed.
Definition occupied {F} (d : DataPoint F) : Prop := dp_range_spline d <> None.

Theorem C03_distinct (junk : nat -> R * R) ops w i j a b :
  run junk calculate_DataPoint ops world0 = Ok w -> i <> j ->
  nth_error (w_slots w) i = Some a -> nth_error (w_slots w) j = Some b ->
  occupied a -> occupied b ->
  ~ key_equiv (dp_p a) (dp_m a) (dp_c a) (dp_p b) (dp_m b) (dp_c b).
Proof.
  intros R N A B OA OB M.
  destruct (window_run junk ops w R) as [W WI].
  assert (D : dp_eqb a b = false).
  { apply (window_distinct w i j a b); try assumption.
    intros; apply dp_eqb_sym; [apply R_eqb_sym|apply R_dist_sym]. }
  rewrite dp_eqb_key in D. apply key_match_R in M. congruence.
Qed.
Print Assumptions C03_distinct.

Theorem C03_distinct_binary64 (lm : Libm) (junk : nat -> float * float) ops w i j a b :
  run (N := NumF lm) junk (calculate_DataPoint (N := NumF lm)) ops (world0 (N := NumF lm)) = Ok w -> i <> j ->
  nth_error (w_slots w) i = Some a -> nth_error (w_slots w) j = Some b ->
  occupied a -> occupied b -> dp_eqb (N := NumF lm) a b = false.
Proof.
  intros R N A B OA OB.
  destruct (window_run (N := NumF lm) junk ops w R) as [W WI].
  apply (window_distinct (N := NumF lm) w i j a b); try assumption.
  intros x y. apply (dp_eqb_sym (N := NumF lm)); [apply F_eqb_sym|apply F_dist_sym].
Qed.
Print Assumptions C03_distinct_binary64.

(** a present key: neither lookup nor insertion changes anything *)
Theorem C03_hit_changes_nothing {F} {N : Num F} (junk : nat -> F * F) p t c w :
  present p t c w ->
  data_add junk calculate_DataPoint p t c w = Ok w /\
  exists i, data_get junk calculate_DataPoint p t c w = Ok (i, w).
Proof.
  intros (e & Ie & M).
  assert (X : existsb (key_match p t c) (w_slots w) = true) by (apply existsb_exists; eauto).
  split; [now apply add_present|].
  destruct (existsb_key_find _ _ _ _ X) as (i & E). exists i. now apply get_present.
Qed.
Print Assumptions C03_hit_changes_nothing.

(** ** C04 *)
(** an entry returned by a lookup that had to insert it survives exactly 59 further insertions,
    whatever hits are interleaved; with the 60th its slot holds another key *)
Theorem C04_inserted_lives_59 {F} {N : Num F} (junk : nat -> F * F) ops w p t c i w' e h w'' :
  run junk calculate_DataPoint ops world0 = Ok w ->
  ~ present p t c w ->
  data_get junk calculate_DataPoint p t c w = Ok (i, w') ->
  nth_error (w_slots w') i = Some e ->
  no_reset h -> run junk calculate_DataPoint h w' = Ok w'' ->
  ((misses junk calculate_DataPoint h w' < 60)%nat -> nth_error (w_slots w'') i = Some e) /\
  (misses junk calculate_DataPoint h w' = 60%nat ->
     exists e', nth_error (w_slots w'') i = Some e' /\ dp_eqb e e' = false).
Proof.
  intros R NP G E NR R2.
  destruct (window_run junk ops w R) as [W WI].
  assert (W' : wf w').
  { eapply (wf_step junk calculate_DataPoint w (OpGet p t c)); auto. simpl. now rewrite G. }
  assert (WI' : window w').
  { eapply (window_step junk calculate_DataPoint calc_keys w (OpGet p t c)); auto. simpl. now rewrite G. }
  assert (LI : (i < 60)%nat /\ lifetime w' i = 59%nat).
  { destruct (get_spec junk calculate_DataPoint w p t c W) as
      [(i' & e' & G' & Hi & EI & M)|(NM & [(why & RC & G')|(d' & RC & G' & EI)])]; rewrite G' in G.
    - exfalso. apply NP. exists e'. split; auto. eapply nth_error_In; eauto.
    - discriminate.
    - inversion G; subst. pose proof (cursor_lt w W) as CL. split; auto.
      rewrite (lifetime_inserted w d' (cursor w) W CL).
      replace (lifetime w (cursor w)) with 0%nat; auto.
      unfold lifetime. rewrite Nat.leb_refl. lia. }
  destruct LI as [Hi LI]. split.
  - intros M. rewrite <- E.
    apply (survives junk calculate_DataPoint h w' w'' i W' Hi NR R2). lia.
  - intros M. eapply (dies junk calculate_DataPoint calc_keys h w' w'' i e W' WI' Hi NR R2); auto. lia.
Qed.
Print Assumptions C04_inserted_lives_59.

(** the general law: slot i survives exactly (i - cursor) mod 60 further insertions *)
Theorem C04_lifetime {F} {N : Num F} (junk : nat -> F * F) ops w i e h w'' :
  run junk calculate_DataPoint ops world0 = Ok w -> (i < 60)%nat ->
  nth_error (w_slots w) i = Some e ->
  no_reset h -> run junk calculate_DataPoint h w = Ok w'' ->
  let left := Nat.modulo (i + 60 - Nat.modulo (w_index w) 60) 60 in
  ((misses junk calculate_DataPoint h w <= left)%nat -> nth_error (w_slots w'') i = Some e) /\
  (misses junk calculate_DataPoint h w = S left ->
     exists e', nth_error (w_slots w'') i = Some e' /\ dp_eqb e e' = false).
Proof.
  intros R Hi E NR R2. cbv zeta.
  destruct (window_run junk ops w R) as [W WI].
  assert (LE : Nat.modulo (i + 60 - Nat.modulo (w_index w) 60) 60 = lifetime w i).
  { unfold lifetime, cursor. destruct W as [_ W]. destruct (Nat.eqb_spec (w_index w) 60) as [->|NE].
    - change (60 mod 60)%nat with 0%nat. simpl Nat.leb. cbv iota.
      replace (i + 60 - 0)%nat with (i + 1 * 60)%nat by lia. rewrite Nat.mod_add by lia.
      rewrite Nat.mod_small by lia. lia.
    - rewrite (Nat.mod_small (w_index w)) by lia. destruct (Nat.leb_spec (w_index w) i).
      + replace (i + 60 - w_index w)%nat with (i - w_index w + 1 * 60)%nat by lia.
        rewrite Nat.mod_add by lia. apply Nat.mod_small. lia.
      + rewrite Nat.mod_small by lia. reflexivity. }
  rewrite LE. split.
  - intros M. rewrite <- E. apply (survives junk calculate_DataPoint h w w'' i W Hi NR R2). lia.
  - intros M. eapply (dies junk calculate_DataPoint calc_keys h w w'' i e W WI Hi NR R2); auto.
Qed.
Print Assumptions C04_lifetime.

(** the hypotheses are met: after the range of protons in water was asked for, 60 projectiles of
    different mass are looked up; the history runs and makes 60 insertions *)
Definition sweep (l : list R) : list (op R) :=
  map (fun a => OpGet (mkProj a 1 1 10) (water 1) conf) l.
Lemma sweep_misses l : forall w, world_ok w -> NoDup l -> Forall (fun a => 0 < a <= 1000) l ->
  (forall d a, In d (w_slots w) -> In a l -> pA (dp_p d) <> a) ->
  exists w', run junk0 calculate_DataPoint (sweep l) w = Ok w' /\ world_ok w' /\
             misses junk0 calculate_DataPoint (sweep l) w = length l.
Proof.
  induction l as [|a l IH]; intros w W ND B F.
  - exists w. auto.
  - inversion ND; inversion B; subst.
    assert (LP : legit_p (mkProj a 1 1 10)) by (unfold legit_p; simpl; lra).
    assert (AB : existsb (key_match (mkProj a 1 1 10) (water 1) conf) (w_slots w) = false).
    { apply not_true_is_false. intros X. apply existsb_exists in X. destruct X as (d & Id & M).
      apply key_match_R in M. destruct M as ((M & _) & _). simpl in M.
      apply (F d a Id); [now left|auto]. }
    destruct (rcalc_total junk0 (w_junk w) (mkProj a 1 1 10) (water 1) conf) as (d & RC & OD).
    { apply legit_key; auto with cases. }
    assert (ST : step junk0 calculate_DataPoint w (OpGet (mkProj a 1 1 10) (water 1) conf) = Ok (inserted w d)).
    { simpl step. rewrite get_absent; [|apply W|exact AB]. rewrite RC. reflexivity. }
    assert (W' : world_ok (inserted w d)).
    { destruct W as [W V]. split; [now apply wf_inserted|]. simpl. apply Forall_set_slot; auto. }
    destruct (IH (inserted w d)) as (w' & R & OW & MS); auto.
    { intros d' a' Id Ia. simpl in Id. apply In_nth_error in Id. destruct Id as (j & Id).
      destruct (Nat.eq_dec (cursor w) j) as [<-|NE].
      - rewrite set_slot_same in Id by (apply cursor_in; apply W). inversion Id; subst d'.
        destruct (rcalc_key junk0 calculate_DataPoint calc_keys _ _ _ _ _ RC) as (-> & _). simpl. congruence.
      - rewrite set_slot_other in Id by assumption. apply (F d' a'); [|now right].
        eapply nth_error_In; eauto. }
    exists w'. split; [|split; auto].
    + unfold run in *. cbn [sweep map ofold]. rewrite ST. cbn [bind]. exact R.
    + cbn [sweep map misses]. rewrite ST. unfold sweep in MS. rewrite MS.
      unfold is_miss. rewrite AB. reflexivity.
Qed.
Example C04_case : exists w i w' w'',
  run junk0 calculate_DataPoint [] world0 = Ok w /\
  ~ present (proton 10) (water 1) conf w /\
  data_get junk0 calculate_DataPoint (proton 10) (water 1) conf w = Ok (i, w') /\
  no_reset (sweep (map (fun k => 2 + INR k) (seq 0 60))) /\
  run junk0 calculate_DataPoint (sweep (map (fun k => 2 + INR k) (seq 0 60))) w' = Ok w'' /\
  misses junk0 calculate_DataPoint (sweep (map (fun k => 2 + INR k) (seq 0 60))) w' = 60%nat.
Proof.
  assert (NP : ~ present (proton 10) (water 1) conf world0).
  { intros (e & Ie & M). apply repeat_spec in Ie. subst e.
    rewrite legit_not_default in M by auto with cases. discriminate. }
  destruct (rcalc_total junk0 0 (proton 10) (water 1) conf) as (d & RC & OD).
  { apply legit_key; auto with cases. }
  assert (G : data_get junk0 calculate_DataPoint (proton 10) (water 1) conf world0 =
              Ok (cursor (F := R) world0, inserted world0 d)).
  { rewrite get_absent; [|apply wf_world0|].
    - change (w_junk (world0 (F := R))) with 0%nat. rewrite RC. reflexivity.
    - apply not_true_is_false. intros X. apply existsb_exists in X. now apply NP. }
  destruct (sweep_misses (map (fun k => 2 + INR k) (seq 0 60)) (inserted world0 d)) as (w'' & RN & _ & MS).
  - split; [apply wf_inserted, wf_world0|]. cbn [inserted w_slots]. apply Forall_set_slot; auto. apply world_ok0.
  - apply FinFun.Injective_map_NoDup; [|apply seq_NoDup]. intros x y E. apply INR_eq. lra.
  - apply Forall_forall. intros a Ha. apply in_map_iff in Ha. destruct Ha as (k & <- & Hk).
    apply in_seq in Hk. pose proof (pos_INR k). assert (INR k <= INR 60) by (apply le_INR; lia).
    replace (INR 60) with 60 in * by (simpl; lra). lra.
  - intros d' a Id Ia. apply in_map_iff in Ia. destruct Ia as (k & <- & _).
    pose proof (pos_INR k). cbn [inserted w_slots] in Id. apply In_nth_error in Id.
    destruct Id as (j & Id). destruct (Nat.eq_dec (cursor (F := R) world0) j) as [<-|NE].
    + rewrite set_slot_same in Id by (apply cursor_in, wf_world0). inversion Id; subst d'.
      destruct (rcalc_key junk0 calculate_DataPoint calc_keys _ _ _ _ _ RC) as (-> & _). simpl. lra.
    + rewrite set_slot_other in Id by assumption. apply nth_error_In in Id.
      apply repeat_spec in Id. subst d'. simpl. lra.
  - exists world0, (cursor (F := R) world0), (inserted world0 d), w''.
    split; [reflexivity|]. split; [exact NP|]. split; [exact G|]. split.
    + unfold no_reset, sweep. rewrite map_map. intros X. apply in_map_iff in X. destruct X as (k & X & _).
      discriminate.
    + split; [exact RN|]. rewrite MS, map_length, seq_length. reflexivity.
Qed.

(** two occupied slots, as in C03 *)
Example C03_case : exists ops w a b,
  run junk0 calculate_DataPoint ops world0 = Ok w /\
  nth_error (w_slots w) 0 = Some a /\ nth_error (w_slots w) 1 = Some b /\
  occupied a /\ occupied b /\ present (proton 10) (water 1) conf w.
Proof.
  destruct (rcalc_total junk0 0 (proton 10) (water 1) conf) as (d1 & R1 & O1).
  { apply legit_key; auto with cases. }
  destruct (rcalc_total junk0 3 (carbon 10) (water 1) conf) as (d2 & R2 & O2).
  { apply legit_key; auto with cases. }
  assert (A1 : existsb (key_match (proton 10) (water 1) conf) (w_slots (world0 (F := R))) = false).
  { apply not_true_is_false. intros X. apply existsb_exists in X. destruct X as (d & Id & M).
    apply repeat_spec in Id. subst d. rewrite legit_not_default in M by auto with cases. discriminate. }
  assert (P1 : dp_p d1 = proton 10 /\ dp_m d1 = water 1 /\ dp_c d1 = conf)
    by (eapply (rcalc_key junk0 calculate_DataPoint calc_keys); exact R1).
  assert (A2 : existsb (key_match (carbon 10) (water 1) conf) (w_slots (inserted world0 d1)) = false).
  { apply not_true_is_false. intros X. apply existsb_exists in X. destruct X as (d & Id & M).
    cbn [inserted w_slots] in Id. apply In_nth_error in Id. destruct Id as (j & Id).
    destruct (Nat.eq_dec (cursor (F := R) world0) j) as [<-|NE].
    - rewrite set_slot_same in Id by (apply cursor_in, wf_world0). inversion Id; subst d.
      apply key_match_R in M. destruct M as ((M & _) & _). destruct P1 as (P1 & _).
      rewrite P1 in M. simpl in M. lra.
    - rewrite set_slot_other in Id by assumption. apply nth_error_In in Id. apply repeat_spec in Id.
      subst d. rewrite legit_not_default in M by auto with cases. discriminate. }
  exists [OpGet (proton 10) (water 1) conf; OpGet (carbon 10) (water 1) conf],
         (inserted (inserted world0 d1) d2), d1, d2.
  split.
  - unfold run. cbn [ofold step]. rewrite (get_absent _ _ _ _ _ world0) by (apply wf_world0 || exact A1).
    change (w_junk (world0 (F := R))) with 0%nat. rewrite R1. cbn [bind omap snd].
    fold (inserted world0 d1).
    change (mkW (set_slot (w_slots world0) (cursor world0) d1) (S (cursor world0)) (w_default world0) (0 + 3))
      with (inserted world0 d1).
    rewrite (get_absent _ _ _ _ _ (inserted world0 d1)) by (apply wf_inserted, wf_world0 || exact A2).
    change (w_junk (inserted (world0 (F := R)) d1)) with 3%nat. rewrite R2. reflexivity.
  - split; [reflexivity|]. split; [reflexivity|].
    destruct O1 as (x1 & x2 & x3 & E1 & _). destruct O2 as (y1 & y2 & y3 & E2 & _).
    split; [unfold occupied; rewrite E1; discriminate|]. split; [unfold occupied; rewrite E2; discriminate|].
    exists d1. split; [left; reflexivity|]. apply key_match_R. destruct P1 as (-> & -> & ->).
    unfold key_equiv. rewrite !Rminus_eq_0, Rabs_R0. repeat split; lra.
Qed.

(** one call with one key inserts at most once, so the slots it reads are never overwritten by
    the call itself *)
Theorem C04_calculate_inserts_once (junk : nat -> R * R) ops w p t c r w' :
  run junk calculate_DataPoint ops world0 = Ok w ->
  calculate junk p t c w = Ok (r, w') ->
  w' = w \/
  (~ present p t c w /\ present p t c w' /\
   exists i, (i < 60)%nat /\ forall j, j <> i -> nth_error (w_slots w') j = nth_error (w_slots w) j).
Proof.
  intros R C. assert (W : wf w) by (eapply run_wf; [apply wf_world0|exact R]).
  apply calculate_via in C. destruct (via_once junk p t c w w' W) as [->|(A & d & -> & M)]; auto.
  - repeat split.
    + now apply proj_eqb_R.
    + apply mat_eqb_R. rewrite Rminus_eq_0, Rabs_R0. repeat split; lra.
    + apply config_eqb_R. rewrite Rminus_eq_0, Rabs_R0. repeat split; lra.
  - right. split.
    + intros (e & Ie & Me). assert (existsb (key_match p t c) (w_slots w) = true) by
        (apply existsb_exists; eauto). congruence.
    + split.
      * exists d. split; auto. simpl. eapply nth_error_In with (n := cursor w).
        apply set_slot_same. now apply cursor_in.
      * exists (cursor w). split; [now apply cursor_lt|]. intros j Hj. simpl.
        apply set_slot_other. auto.
Qed.
Print Assumptions C04_calculate_inserts_once.

(** ** C06 *)
Theorem C06_key (p : Projectile R) t c e : key_match p t c e = true <-> key_equiv (dp_p e) (dp_m e) (dp_c e) p t c.
Proof. apply key_match_R. Qed.
Print Assumptions C06_key.

Theorem C06_reflexive (p : Projectile R) t c : key_equiv p t c p t c.
Proof. unfold key_equiv. rewrite !Rminus_eq_0, Rabs_R0. repeat split; lra. Qed.
Print Assumptions C06_reflexive.

Theorem C06_symmetric (p : Projectile R) t c p' t' c' :
  key_equiv p t c p' t' c' -> key_equiv p' t' c' p t c.
Proof.
  unfold key_equiv. rewrite (Rabs_minus_sym (m_rho t)), (Rabs_minus_sym (c_sfac c)).
  intuition congruence.
Qed.
Print Assumptions C06_symmetric.

(** energy and thickness do not enter, in any arithmetic *)
Theorem C06_energy_thickness {F} {N : Num F} p t c e T th :
  key_match (F := F) (at_T p T) (set_thickness t th) c e = key_match p t c e.
Proof. reflexivity. Qed.
Print Assumptions C06_energy_thickness.

(** == is symmetric in binary64 as well, NaN and signed zeros included *)
Theorem C06_symmetric_binary64 (lm : Libm) (a b : DataPoint float) :
  dp_eqb (N := NumF lm) a b = dp_eqb (N := NumF lm) b a.
Proof. apply (dp_eqb_sym (N := NumF lm)); [apply F_eqb_sym|apply F_dist_sym]. Qed.
Print Assumptions C06_symmetric_binary64.

(** not transitive: densities 1, 1+6e-7, 1+12e-7 *)
Theorem C06_transitive_refuted : exists (p : Projectile R) c t1 t2 t3,
  key_equiv p t1 c p t2 c /\ key_equiv p t2 c p t3 c /\ ~ key_equiv p t1 c p t3 c.
Proof.
  exists (proton 1), conf, (set_density (water 1) 1), (set_density (water 1) (1 + 6 / 10000000)),
         (set_density (water 1) (1 + 12 / 10000000)).
  unfold key_equiv. cbn [set_density m_rho m_I m_M m_atoms water].
  rewrite !Rminus_eq_0, Rabs_R0.
  repeat split; try lra.
  - rewrite Rabs_left; lra.
  - rewrite Rabs_left; lra.
  - intros (_ & (H & _) & _). rewrite Rabs_left in H; lra.
Qed.
Print Assumptions C06_transitive_refuted.

(** binary64: a NaN density or scattering factor compares equal to every other one *)
Theorem C06_nan_refuted (lm : Libm) :
  mat_eqb (N := NumF lm) (mkMat nan 0 0 0 [])%float (mkMat 7 0 0 0 [])%float = true /\
  config_eqb (N := NumF lm) (mkConfig 1 0 1 0 255 nan) (mkConfig 1 0 1 0 255 7%float) = true /\
  proj_eqb (N := NumF lm) (mkProj nan 1 1 1)%float (mkProj nan 1 1 1)%float = false.
Proof. split; [|split]; vm_compute; reflexivity. Qed.
Print Assumptions C06_nan_refuted.

Example C06_case : key_equiv (proton 10) (water 1) conf (proton 300) (water 7) (conf_sf (1 + 1 / 2000)) /\
  ~ key_equiv (proton 10) (water 1) conf (proton 10) (water 1) (conf_sf (1 + 1 / 500)).
Proof.
  unfold key_equiv, conf_sf, conf, Config0. cbn. numR. dec_norm. rewrite Rminus_eq_0, Rabs_R0.
  split.
  - repeat split; try lra. rewrite Rabs_left; lra.
  - intros (_ & _ & H). destruct H as (_ & _ & _ & _ & _ & H). rewrite Rabs_left in H; lra.
Qed.
