(** * Property C66: what the build options change *)
From Coq Require Import ZArith Reals List Bool Lia Lra.
From Verif Require Import Num NumR Structures EnergyTable Spline Integrator Calculations NucData Reactions Storage CacheProofs Catima CacheFresh History ApiCache BoundsAny EnergyOutProofs LayerProofs PropEnergyOut PropTestCalls BoundsProofs TotalProofs ApiTotal Cases PropLayers ProtonStopping PropMono PropMonoProton PropMonoStack Builds.
Import ListNotations.

Section Any.
Context {F : Type} {N : Num F}.

(** the default build is the model of Catima.v *)
Lemma lookup_default junk p t c w : lookup_b junk default_build p t c w = lookup junk p t c w.
Proof. reflexivity. Qed.
Theorem C66_default junk q w : exec_b junk default_build q w = exec junk q w.
Proof.
  destruct q; reflexivity.
Qed.

(** ** STORE_SPLINES *)
Section Store.
Variable junk : nat -> F * F.
Hypothesis junk_const : forall k, junk k = junk 0%nat.
Hypothesis two : feqb (lit (Num:=N) 2.0) (lit 0.0) = false.
Variables thin react : bool.
Let on := mkBuild true thin react.
Let off := mkBuild false thin react.

(** an entry of the one build and the entry of the other in the same place *)
Definition built (s : option (spline F)) (y : list F) : Prop := exists s', s = Some s' /\ make_spline energy_table y (junk 0%nat) = Ok s'.
Definition twin (d e : DataPoint F) : Prop :=
  dp_p d = dp_p e /\ dp_m d = dp_m e /\ dp_c d = dp_c e /\ dp_range d = dp_range e /\ dp_rs d = dp_rs e /\ dp_av d = dp_av e /\
  (d = DataPoint0 \/ built (dp_range_spline d) (dp_range d) /\ built (dp_rs_spline d) (dp_rs d) /\ built (dp_av_spline d) (dp_av d)).
Definition twins (w v : world F) : Prop := w_index w = w_index v /\ w_default w = w_default v /\ Forall2 twin (w_slots w) (w_slots v).
Definition tres {A} (x y : A * world F) : Prop := fst x = fst y /\ twins (snd x) (snd y).

Lemma twin_key p t c d e : twin d e -> key_match p t c d = key_match p t c e.
Proof. intros (A & B & C & _). unfold key_match. rewrite A, B, C. reflexivity. Qed.
Lemma twin_find (q : DataPoint F -> bool) : (forall d e, twin d e -> q d = q e) -> forall l m, Forall2 twin l m -> find_slot q l = find_slot q m.
Proof. intros Q l m H. induction H as [|d e l m D H IH]; [reflexivity|]. cbn [find_slot]. rewrite (Q d e D), IH. reflexivity. Qed.
Lemma twin_set i : forall l m d e, Forall2 twin l m -> twin d e -> Forall2 twin (set_slot l i d) (set_slot m i e).
Proof. induction i as [|i IH]; intros l m d e H D; destruct H; cbn [set_slot]; constructor; auto. Qed.
Lemma twin_nth i : forall l m, Forall2 twin l m -> match nth_error l i, nth_error m i with Some d, Some e => twin d e | None, None => True | _, _ => False end.
Proof. induction i as [|i IH]; intros l m H; destruct H; cbn [nth_error]; auto. apply IH. assumption. Qed.

Lemma tables_long p t c d : calculate_DataPoint p t c = Ok d -> length (dp_range d) = 600%nat /\ length (dp_rs d) = 600%nat /\ length (dp_av d) = 600%nat /\ dp_range_spline d = None /\ dp_rs_spline d = None /\ dp_av_spline d = None.
Proof.
  unfold calculate_DataPoint, range_table, angular_table, straggling_table. intros H.
  assert (AL : forall (step : F -> F -> outcome F) l lo prev r, accumulate step lo l prev = Ok r -> length r = length l).
  { intros step. induction l as [|x l IH]; intros lo prev r Q; cbn [accumulate] in Q; [injection Q as <-; reflexivity|]. apply bind_ok in Q. destruct Q as (v & _ & Q). cbv zeta in Q. apply bind_ok in Q. destruct Q as (l' & Q1 & Q). injection Q as <-. cbn [length]. f_equal. exact (IH _ _ _ Q1). }
  assert (TL : forall (step : F -> F -> outcome F) r, table step (et_values energy_table) = Ok r -> length r = 600%nat).
  { intros step r Q. pose proof (any_grid_length (F:=F)) as GL. destruct (et_values energy_table) as [|g0 rest]; [discriminate|]. cbn [table] in Q. apply bind_ok in Q. destruct Q as (l & Q1 & Q). injection Q as <-. cbn [length] in *. rewrite (AL _ _ _ _ _ Q1). exact GL. }
  apply bind_ok in H. destruct H as (r & R1 & H). apply bind_ok in H. destruct H as (a & A1 & H). apply bind_ok in H. destruct H as (s & S1 & H). injection H as <-. cbn [dp_range dp_rs dp_av dp_range_spline dp_rs_spline dp_av_spline]. eauto 10.
Qed.
Lemma make_any y k : length y = 600%nat -> exists s, make_spline energy_table y (junk k) = Ok s /\ make_spline energy_table y (junk 0%nat) = Ok s.
Proof. intros L. rewrite junk_const. destruct (any_make_spline y (junk 0%nat) two L) as (s & M & _). eauto. Qed.

Lemma lookup_twins p t c w v : key_match p t c DataPoint0 = false -> twins w v ->
  osim (fun x y => twin (fst x) (fst y) /\ key_match p t c DataPoint0 = false /\ fst x <> DataPoint0 /\ twins (snd x) (snd y)) (lookup_b junk on p t c w) (lookup_b junk off p t c v).
Proof.
  intros K (I1 & D1 & S1). unfold lookup_b, data_get_b. rewrite (twin_find (key_match p t c) ltac:(intros; now apply twin_key) _ _ S1).
  assert (LEN : length (w_slots w) = length (w_slots v)) by (clear -S1; induction S1; cbn [length]; congruence).
  destruct (find_slot (key_match p t c) (w_slots v)) as [i|] eqn:FS.
  - cbn [bind]. unfold slot. pose proof (twin_nth i _ _ S1) as T. destruct (find_slot_some _ _ _ FS) as (e & E & KE & _). rewrite E in *. destruct (nth_error (w_slots w) i) as [d|]; [|contradiction]. cbn [bind osim fst snd].
    split; [exact T|]. split; [exact K|]. split; [|split; [exact I1|split; [exact D1|exact S1]]]. intros ->. rewrite <- (twin_key p t c _ _ T) in KE. congruence.
  - unfold data_add_b. cbn [store_splines on off]. unfold data_add. cbv zeta. rewrite (find_slot_ext _ _ (w_slots v) (key_match_dp_eqb p t c)), (find_slot_ext _ _ (w_slots w) (key_match_dp_eqb p t c)), FS.
    rewrite (twin_find (key_match p t c) ltac:(intros; now apply twin_key) _ _ S1), FS.
    { rewrite LEN, I1. set (i := if Nat.eqb _ _ then _ else _). destruct (calculate_DataPoint p t c) as [d|u] eqn:CD; [|reflexivity]. destruct (tables_long _ _ _ _ CD) as (L1 & L2 & L3 & N1 & N2 & N3). cbn [bind]. unfold with_splines.
      destruct (make_any (dp_range d) (w_junk w) L1) as (s1 & M1 & M1'). destruct (make_any (dp_rs d) (w_junk w + 1)%nat L2) as (s2 & M2 & M2'). destruct (make_any (dp_av d) (w_junk w + 2)%nat L3) as (s3 & M3 & M3'). rewrite M1, M2, M3. cbn [bind].
      destruct (i <? length (w_slots v))%nat eqn:IL; [|reflexivity]. cbn [bind w_index w_slots]. set (d' := mkDP _ _ _ _ _ _ _ _ _).
      assert (TW : twin d' d) by (unfold twin, d'; cbn [dp_p dp_m dp_c dp_range dp_rs dp_av dp_range_spline dp_rs_spline dp_av_spline]; do 6 (split; [reflexivity|]); right; split; [exists s1; auto|split; [exists s2; auto|exists s3; auto]]).
      pose proof (twin_set i _ _ d' d S1 TW) as TS. unfold slot. cbn [w_slots]. pose proof (twin_nth i _ _ TS) as TN. apply Nat.ltb_lt in IL.
      assert (SN : forall l (x : DataPoint F), (i < length l)%nat -> nth_error (set_slot l i x) i = Some x) by (clear; intros l x; revert l; induction i as [|i IH]; intros [|y l] H; cbn [length] in H; try lia; cbn [set_slot nth_error]; [reflexivity|]; apply IH; lia).
      rewrite (SN (w_slots w) d') by lia. rewrite (SN (w_slots v) d) by lia. cbn [bind osim fst snd]. split; [exact TW|]. split; [exact K|]. split; [unfold d'; intros Q; apply (f_equal dp_range_spline) in Q; discriminate|].
      split; [reflexivity|]. split; [exact D1|]. exact TS. }
Qed.

Lemma get_twins (s o : option (spline F)) y w v : built s y -> twins w v -> osim tres (get_spline junk on s y w) (get_spline junk off o y v).
Proof. intros (s' & -> & M) (I1 & D1 & S1). unfold get_spline. cbn [store_splines on off]. rewrite junk_const, M. cbn [bind osim]. split; [reflexivity|]. split; [exact I1|split; [exact D1|exact S1]]. Qed.

Notation key p t c := (key_match p t c DataPoint0 = false).
Ltac tw := match goal with
  | |- osim tres (bind (lookup_b junk on ?p ?t ?c ?w) _) _ => eapply osim_bind; [apply lookup_twins; eassumption|];
       let d := fresh "d" in let w1 := fresh "w" in let e := fresh "e" in let v1 := fresh "v" in let A := fresh "A" in let B := fresh "B" in let W := fresh "W" in
       let E4 := fresh "E" in let E5 := fresh "E" in let E6 := fresh "E" in let G1 := fresh "G" in let G2 := fresh "G" in let G3 := fresh "G" in
       intros [d w1] [e v1] (A & _ & B & W); cbn [fst snd] in A, B, W; destruct A as (_ & _ & _ & E4 & E5 & E6 & [A|(G1 & G2 & G3)]); [contradiction|];
       unfold get_range_spline, get_range_straggling_spline, get_angular_variance_spline; rewrite <- ?E4, <- ?E5, <- ?E6; clear E4 E5 E6 B
  | |- osim tres (bind (get_spline junk on _ _ _) _) _ => eapply osim_bind; [apply get_twins; assumption|];
       let s := fresh "s" in let w1 := fresh "w" in let s' := fresh "s" in let v1 := fresh "v" in let A := fresh "A" in let W := fresh "W" in
       intros [s w1] [s' v1] [A W]; cbn [fst snd] in A, W; subst s'
  end.
Ltac fin := first [apply osim_same; intros ?; try fin | split; [reflexivity|assumption]].
Lemma range_t p t c w v : key p t c -> twins w v -> osim tres (range_b junk on p t c w) (range_b junk off p t c v).
Proof. intros K W. unfold range_b. tw. tw. fin. Qed.
Lemma dedx_t p t c w v : key p t c -> twins w v -> osim tres (dedx_from_range_b junk on p t c w) (dedx_from_range_b junk off p t c v).
Proof. intros K W. unfold dedx_from_range_b. tw. tw. fin. Qed.
Lemma dedx_v_t p T t c w v : key p t c -> twins w v -> osim tres (dedx_from_range_v_b junk on p T t c w) (dedx_from_range_v_b junk off p T t c v).
Proof. intros K W. unfold dedx_from_range_v_b. tw. tw. fin. Qed.
Lemma rstrag_t p T t c w v : key p t c -> twins w v -> osim tres (range_straggling_b junk on p T t c w) (range_straggling_b junk off p T t c v).
Proof. intros K W. unfold range_straggling_b. tw. tw. fin. Qed.
Lemma rvar_t p T t c w v : key p t c -> twins w v -> osim tres (range_variance_b junk on p T t c w) (range_variance_b junk off p T t c v).
Proof. intros K W. unfold range_variance_b. tw. tw. fin. Qed.
Lemma domega_t p T t c w v : key p t c -> twins w v -> osim tres (domega2de_b junk on p T t c w) (domega2de_b junk off p T t c v).
Proof. intros K W. unfold domega2de_b. tw. tw. fin. Qed.
Lemma avar_t p t c o w v : key p t c -> twins w v -> osim tres (angular_variance_b junk on p t c o w) (angular_variance_b junk off p t c o v).
Proof. intros K W. unfold angular_variance_b. tw. tw. fin. Qed.
Lemma astrag_t p t c w v : key p t c -> twins w v -> osim tres (angular_straggling_b junk on p t c w) (angular_straggling_b junk off p t c v).
Proof. intros K W. unfold angular_straggling_b. eapply osim_bind; [apply avar_t; eassumption|]. intros [x w1] [y v1] [E W1]. cbn [fst snd] in E, W1. subst y. split; [reflexivity|exact W1]. Qed.
Lemma astragE_t p Tout t c w v : key p t c -> twins w v -> osim tres (angular_straggling_from_E_b junk on p Tout t c w) (angular_straggling_from_E_b junk off p Tout t c v).
Proof. intros K W. unfold angular_straggling_from_E_b. tw. tw. apply osim_same. intros r1. apply osim_same. intros r2. apply astrag_t; [exact K|assumption]. Qed.
Lemma estragE_t p T Tout t c w v : key p t c -> twins w v -> osim tres (energy_straggling_from_E_b junk on p T Tout t c w) (energy_straggling_from_E_b junk off p T Tout t c v).
Proof. intros K W. unfold energy_straggling_from_E_b. tw. tw. tw. fin. Qed.
Lemma eout_t p t c w v : key p t c -> twins w v -> osim tres (energy_out_b junk on p t c w) (energy_out_b junk off p t c v).
Proof. intros K W. unfold energy_out_b. tw. tw. fin. Qed.
Lemma eout_v_t p T t c w v : key p t c -> twins w v -> osim tres (energy_out_v_b junk on p T t c w) (energy_out_v_b junk off p T t c v).
Proof. intros K W. unfold energy_out_v_b. tw. tw. fin. Qed.
Lemma nonreaction_t p t c w v : key p t c -> twins w v -> osim tres (nonreaction_rate_b junk on p t c w) (nonreaction_rate_b junk off p t c v).
Proof.
  intros K W. unfold nonreaction_rate_b. destruct (fltb _ _); [split; [reflexivity|exact W]|]. destruct (fleb _ _); [split; [reflexivity|exact W]|]. apply osim_same. intros ap. apply osim_same. intros zp. tw. tw. fin.
Qed.
Lemma mag_t p Ein t c w v : key p t c -> twins w v -> osim tres (w_magnification_b junk on p Ein t c w) (w_magnification_b junk off p Ein t c v).
Proof.
  intros K W. unfold w_magnification_b. destruct (_ || _); [split; [reflexivity|exact W]|]. cbv zeta. eapply osim_bind; [apply eout_v_t; eassumption|]. intros [x w1] [y v1] [E W1]. cbn [fst snd] in E, W1. subst y.
  apply osim_same. intros r0. apply osim_same. intros r1. apply osim_same. intros r2. destruct (_ && _ && _); split; try reflexivity; exact W1.
Qed.
Lemma calculate_t p t c w v : key p t c -> twins w v -> osim tres (calculate_b junk on p t c w) (calculate_b junk off p t c v).
Proof.
  intros K W. unfold calculate_b. cbv zeta. destruct (_ && _); [split; [reflexivity|exact W]|]. tw. tw. tw.
  apply osim_same. intros rg. apply osim_same. intros dr. apply osim_same. intros sv. destruct (feqb (m_th t) _); [split; [reflexivity|assumption]|]. apply osim_same. intros Eo.
  change (sigma_E_b off) with (sigma_E_b on). change (sigma_a_b off) with (sigma_a_b on).
  eapply (osim_bind tres).
  - destruct (fltb Eo Ezero); [split; [reflexivity|assumption]|]. tw. apply osim_same. intros dd. apply osim_same. intros sE. apply osim_same. intros sa.
    eapply (osim_bind tres); [destruct (_ && _); [apply astrag_t; assumption|split; [reflexivity|assumption]]|]. intros [x w5] [y v5] [E5 W5]. cbn [fst snd] in E5, W5. subst y.
    assert (DW : w_default w5 = w_default v5) by apply W5. rewrite DW. apply osim_same. intros tof. split; [reflexivity|exact W5].
  - intros [[[[x1 x2] x3] x4] w5] [[[[y1 y2] y3] y4] v5] [E5 W5]. cbn [fst snd] in E5, W5. injection E5 as <- <- <- <-.
    eapply osim_bind; [apply avar_t; eassumption|]. intros [x w6] [y v6] [E6 W6]. cbn [fst snd] in E6, W6. subst y.
    eapply osim_bind; [apply avar_t; eassumption|]. intros [z w7] [y v7] [E7 W7]. cbn [fst snd] in E7, W7. subst y.
    eapply (osim_bind tres); [change (reactions off) with (reactions on); destruct (reactions on); [apply nonreaction_t; eassumption|split; [reflexivity|exact W7]]|]. intros [u w8] [y v8] [E8 W8]. cbn [fst snd] in E8, W8. subst y. split; [reflexivity|exact W8].
Qed.
Lemma loop_t p c : forall ls e tot w v, Forall (fun m => key p m c) ls -> twins w v -> osim tres (layers_loop_b junk on p c ls e tot w) (layers_loop_b junk off p c ls e tot v).
Proof.
  induction ls as [|m ls IH]; intros e tot w v K W; [split; [reflexivity|exact W]|]. inversion K as [|? ? K1 K2]; subst. cbn [layers_loop_b]. eapply osim_bind; [apply calculate_t; [exact K1|exact W]|]. intros [r w1] [r' v1] [E W1]. cbn [fst snd] in E, W1. subst r'.
  eapply osim_bind; [apply IH; [exact K2|exact W1]|]. intros [[[rs e1] t1] w2] [[[rs' e2] t2] v2] [E2 W2]. cbn [fst snd] in E2, W2. injection E2 as <- <- <-. split; [reflexivity|exact W2].
Qed.
Lemma layers_t p ps ls c w v : Forall (fun m => key p m c) ls -> twins w v -> osim tres (calculate_layers_b junk on p ps ls c w) (calculate_layers_b junk off p ps ls c v).
Proof.
  intros K W. unfold calculate_layers_b. eapply osim_bind; [apply loop_t; eassumption|]. intros [[[rs e1] t1] w2] [[[rs' e2] t2] v2] [E2 W2]. cbn [fst snd] in E2, W2. injection E2 as <- <- <-. split; [reflexivity|exact W2].
Qed.

(** no call asks for the key of an entry that was never written *)
Definition touched (q : call F) : Prop := Forall (fun k => key_match (fst (fst k)) (snd (fst k)) (snd k) DataPoint0 = false) (keys_of q).
Lemma omap_t {A B} (f : A -> B) (x y : outcome (A * world F)) : osim tres x y -> osim tres (omap (fun r => (f (fst r), snd r)) x) (omap (fun r => (f (fst r), snd r)) y).
Proof. destruct x as [[a w]|], y as [[a' w']|]; cbn [osim omap]; auto. intros [E W]. cbn [fst snd] in *. subst. split; [reflexivity|exact W]. Qed.
Lemma exec_t q w v : touched q -> twins w v -> osim tres (exec_b junk on q w) (exec_b junk off q v).
Proof.
  intros K W. assert (K1 : forall p t c, keys_of q = [(p, t, c)] -> key p t c) by (intros p t c E; unfold touched in K; rewrite E in K; inversion K; subst; assumption).
  destruct q; cbn [exec_b]; unfold one; try (specialize (K1 _ _ _ eq_refl)).
  - apply (omap_t (fun r => [r])). now apply range_t.
  - apply (omap_t (fun r => [r])). now apply dedx_t.
  - now apply dedx_v_t.
  - apply (omap_t (fun r => [r])). now apply rstrag_t.
  - apply (omap_t (fun r => [r])). now apply rvar_t.
  - apply (omap_t (fun r => [r])). now apply domega_t.
  - apply (omap_t (fun r => [r])). now apply avar_t.
  - apply (omap_t (fun r => [r])). now apply astrag_t.
  - apply (omap_t (fun r => [r])). now apply astragE_t.
  - apply (omap_t (fun r => [r])). now apply estragE_t.
  - apply (omap_t (fun r => [r])). now apply eout_t.
  - now apply eout_v_t.
  - apply (omap_t (fun r => [r])). now apply nonreaction_t.
  - apply (omap_t (fun r => [fst r; snd r])). now apply mag_t.
  - apply (omap_t result_list). now apply calculate_t.
  - apply (omap_t (fun r => concat (map result_list (mr_results r)) ++ result_list (mr_total r))). apply layers_t; [|exact W].
    unfold touched in K. cbn [keys_of] in K. rewrite Forall_map in K. exact K.
  - split; [reflexivity|]. destruct W as (I1 & D1 & S1). split; [reflexivity|]. split; [exact D1|]. cbn [data_reset w_slots snd]. clear. generalize max_storage_data. intros n. induction n as [|n IH]; cbn [repeat]; constructor; [|exact IH].
    unfold twin. do 6 (split; [reflexivity|]). left. reflexivity.
  - split; [reflexivity|]. destruct W as (I1 & D1 & S1). split; [exact I1|]. split; [reflexivity|exact S1].
Qed.
Lemma twins0 : twins world0 world0.
Proof.
  split; [reflexivity|]. split; [reflexivity|]. cbn [world0 w_slots]. generalize max_storage_data. intros n. induction n as [|n IH]; cbn [repeat]; constructor; [|exact IH].
  unfold twin. do 6 (split; [reflexivity|]). left. reflexivity.
Qed.
Lemma exec_all_t : forall h w v, Forall touched h -> twins w v -> osim twins (exec_all_b junk on h w) (exec_all_b junk off h v).
Proof.
  induction h as [|q h IH]; intros w v K W; [exact W|]. inversion K as [|? ? K1 K2]; subst. unfold exec_all_b in *. cbn [ofold].
  pose proof (exec_t q w v K1 W) as E. destruct (exec_b junk on q w) as [[a w1]|u], (exec_b junk off q v) as [[a' v1]|u']; cbn [osim] in E; try contradiction; cbn [omap bind]; [|cbn [osim]; congruence]. destruct E as [_ E]. cbn [fst snd] in *. now apply IH.
Qed.
(** a program in which every spline construction finds the same leftovers, and that asks for no entry that was never written: each call
    returns the same numbers, or is undefined for the same reason, whether splines are stored or not *)
Theorem C66_store_splines h q : Forall touched h -> touched q ->
  omap fst (bind (exec_all_b junk on h world0) (exec_b junk on q)) = omap fst (bind (exec_all_b junk off h world0) (exec_b junk off q)).
Proof.
  intros KH KQ. pose proof (exec_all_t h world0 world0 KH twins0) as H. destruct (exec_all_b junk on h world0) as [w|u], (exec_all_b junk off h world0) as [v|u']; cbn [osim] in H; try contradiction; cbn [bind]; [|cbn [omap]; congruence].
  pose proof (exec_t q w v KQ H) as E. destruct (exec_b junk on q w) as [[a w1]|u], (exec_b junk off q v) as [[a' v1]|u']; cbn [osim] in E; try contradiction; cbn [omap fst]; [destruct E as [E _]; cbn [fst] in E|]; congruence.
Qed.
End Store.

(** ** REACTIONS *)
Definition with_sp (r : Result F) (x : F) : Result F :=
  mkResult (r_Ein r) (r_Eout r) (r_Eloss r) (r_range r) (r_dEdxi r) (r_dEdxo r) (r_sigma_E r) (r_sigma_a r) (r_sigma_r r) (r_sigma_x r) (r_cov r) (r_tof r) x.
Section Reactions.
Variable junk : nat -> F * F.
Variable thin : bool.
Let on := mkBuild true thin true.
Let off := mkBuild true thin false.
Notation one := (lit (Num:=N) 1.0).
(** a call of calculate that returns with reactions returns without them: the same numbers but for sp, and the same state *)
Theorem C66_no_reactions p t c w r w' : wf w -> self_key p t c -> calculate_b junk on p t c w = Ok (r, w') ->
  calculate_b junk off p t c w = Ok (with_sp r one, w') /\ wf w'.
Proof.
  intros W K H. unfold calculate_b in *. cbv zeta in *. destruct (_ && _); [injection H as <- <-; split; [reflexivity|exact W]|].
  change (lookup_b junk on) with (lookup_b junk default_build) in H. change (lookup_b junk off) with (lookup_b junk default_build). rewrite lookup_default in *.
  apply bind_ok in H. destruct H as ([d w1] & L & H). rewrite L. pose proof (again junk p t c w d w1 W K L) as A. pose proof (wf_lookup junk p t c w d w1 W L) as W1. cbn [bind] in *.
  change (get_range_spline junk on d w1) with (@Ok (option (spline F) * world F) (dp_range_spline d, w1)) in H. change (get_range_spline junk off d w1) with (@Ok (option (spline F) * world F) (dp_range_spline d, w1)). cbn [bind] in *.
  change (get_range_straggling_spline junk on d w1) with (@Ok (option (spline F) * world F) (dp_rs_spline d, w1)) in H. change (get_range_straggling_spline junk off d w1) with (@Ok (option (spline F) * world F) (dp_rs_spline d, w1)). cbn [bind] in *.
  apply bind_ok in H. destruct H as (rg & E1 & H). rewrite E1. apply bind_ok in H. destruct H as (dr & E2 & H). rewrite E2. apply bind_ok in H. destruct H as (sv & E3 & H). rewrite E3. cbn [bind] in *.
  destruct (feqb (m_th t) _); [injection H as <- <-; split; [reflexivity|exact W1]|]. apply bind_ok in H. destruct H as (Eo & E4 & H). rewrite E4. cbn [bind].
  apply bind_ok in H. destruct H as ([[[[x1 x2] x3] x4] w2] & E5 & H).
  assert (w2 = w1).
  { destruct (fltb Eo _); [congruence|]. change (get_angular_variance_spline junk on d w1) with (@Ok (option (spline F) * world F) (dp_av_spline d, w1)) in E5. cbn [bind] in E5.
    apply bind_ok in E5. destruct E5 as (do_ & _ & E5). apply bind_ok in E5. destruct E5 as (sE & _ & E5). apply bind_ok in E5. destruct E5 as (sa & _ & E5). apply bind_ok in E5. destruct E5 as ([sb w3] & E6 & E5). apply bind_ok in E5. destruct E5 as (tof & _ & E5). injection E5 as _ _ _ _ <-.
    destruct (_ && _); [exact (straggling_keeps junk p t c w1 d sb w3 A E6)|congruence]. }
  subst w2. match goal with |- bind ?X _ = _ /\ _ => replace X with (@Ok (F * F * F * F * world F) (x1, x2, x3, x4, w1)) by (rewrite <- E5; reflexivity) end. cbn [bind].
  apply bind_ok in H. destruct H as ([vx w3] & V1 & H). pose proof (variance_keeps junk p t c 2 w1 d vx w3 A V1) as ->. replace (angular_variance_b junk off p t c 2 w1) with (@Ok (F * world F) (vx, w1)) by (rewrite <- V1; reflexivity). cbn [bind].
  apply bind_ok in H. destruct H as ([cov w4] & V2 & H). pose proof (variance_keeps junk p t c 1 w1 d cov w4 A V2) as ->. replace (angular_variance_b junk off p t c 1 w1) with (@Ok (F * world F) (cov, w1)) by (rewrite <- V2; reflexivity). cbn [bind reactions off].
  cbn [reactions on] in H. apply bind_ok in H. destruct H as ([sp w5] & V3 & H). pose proof (rate_keeps junk p t c w1 d sp w5 A V3) as ->. injection H as <- <-. split; [reflexivity|exact W1].
Qed.
Lemma loop_no_reactions p c : forall ls e tot w rs e' tot' w', wf w -> (forall e m, In m ls -> self_key (at_T p e) m c) ->
  layers_loop_b junk on p c ls e tot w = Ok (rs, e', tot', w') ->
  layers_loop_b junk off p c ls e (with_sp tot one) w = Ok (map (fun r => with_sp r one) rs, e', with_sp tot' one, w') /\ wf w'.
Proof.
  induction ls as [|m ls IH]; intros e tot w rs e' tot' w' W K H; cbn [layers_loop_b] in *; [injection H as <- <- <- <-; split; [reflexivity|exact W]|].
  apply bind_ok in H. destruct H as ([r w1] & E1 & H). destruct (C66_no_reactions _ _ _ _ _ _ W (K e m (or_introl eq_refl)) E1) as [E2 W1]. rewrite E2. cbn [bind].
  apply bind_ok in H. destruct H as ([[[rs1 e1] tot1] w2] & E3 & H). injection H as <- <- <- <-.
  destruct (IH _ _ _ _ _ _ _ W1 (fun x y z => K x y (or_intror z)) E3) as [E4 W2].
  change (r_Eout (with_sp r one)) with (r_Eout r). change (layer_update_b off m (with_sp r one) (with_sp tot one)) with (with_sp (layer_update_b on m r tot) one). rewrite E4. split; [reflexivity|exact W2].
Qed.
Theorem C66_no_reactions_layers p ps ls c w r w' : wf w -> (forall e m, In m ls -> self_key (at_T p e) m c) ->
  calculate_layers_b junk on p ps ls c w = Ok (r, w') ->
  calculate_layers_b junk off p ps ls c w = Ok (mkMulti (map (fun x => with_sp x one) (mr_results r)) (with_sp (mr_total r) one), w') /\ wf w'.
Proof.
  intros W K H. unfold calculate_layers_b in *. apply bind_ok in H. destruct H as ([[[rs e] tot] w1] & E & H). injection H as <- <-.
  destruct (loop_no_reactions _ _ _ _ _ _ _ _ _ _ W K E) as [E2 W2]. change (with_sp (total0 p ps) one) with (total0 p ps) in E2. rewrite E2. split; [|exact W2]. cbn [bind mr_results mr_total]. unfold total_finish. destruct (fltb Ezero e); reflexivity.
Qed.
(** whole programs: if the library with reactions gets through, the one without does, into the same state *)
Theorem C66_no_reactions_state : forall h w w', wf w -> Forall (fun q => forall p t c, In (p, t, c) (keys_of q) -> forall e, self_key (at_T p e) t c) h ->
  exec_all_b junk on h w = Ok w' -> exec_all_b junk off h w = Ok w' /\ wf w'.
Proof.
  induction h as [|q h IH]; intros w w' W K H; unfold exec_all_b in *; cbn [ofold] in *; [injection H as <-; split; [reflexivity|exact W]|].
  inversion K as [|? ? K1 K2]; subst. destruct (exec_b junk on q w) as [[x w1]|] eqn:E1; [|discriminate]. cbn [omap bind snd] in H.
  assert (exists y, exec_b junk off q w = Ok (y, w1) /\ wf w1) as (y & -> & W1); [|cbn [omap bind snd]; exact (IH _ _ W1 K2 H)].
  assert (G : exec_b junk on q w = exec junk q w -> exec_b junk off q w = exec_b junk on q w -> exists y, exec_b junk off q w = Ok (y, w1) /\ wf w1).
  { intros G1 G2. exists x. rewrite G2. split; [exact E1|]. rewrite G1 in E1. destruct (exec_history junk q w x w1 E1) as (ops & _ & RN). exact (run_wf junk calculate_DataPoint ops w w1 W RN). }
  destruct q. 1-14, 17-18: apply G; reflexivity. all: clear G; cbn [exec_b] in *.
  - destruct (calculate_b junk on _ _ _ w) as [[r w5]|] eqn:C1; [|discriminate]. cbn [omap fst snd] in E1. injection E1 as <- <-. edestruct C66_no_reactions as [E W1]; [exact W| |exact C1|].
    { rewrite <- (at_same p). apply K1. left. reflexivity. }
    rewrite E. eexists. split; [reflexivity|exact W1].
  - destruct (calculate_layers_b junk on _ _ _ _ w) as [[r w5]|] eqn:C1; [|discriminate]. cbn [omap fst snd] in E1. injection E1 as <- <-. edestruct C66_no_reactions_layers as [E W1]; [exact W| |exact C1|].
    { intros e m IN. apply K1. cbn [keys_of]. apply in_map_iff. exists m. split; [reflexivity|exact IN]. }
    rewrite E. eexists. split; [reflexivity|exact W1].
Qed.
End Reactions.

(** ** THIN_TARGET_APPROXIMATION *)
Section Thin.
Variable junk : nat -> F * F.
Variables store react : bool.
Let on := mkBuild store true react.
Let off := mkBuild store false react.
Definition but_sigma (r s : Result F) : Prop :=
  r_Ein r = r_Ein s /\ r_Eout r = r_Eout s /\ r_Eloss r = r_Eloss s /\ r_range r = r_range s /\ r_dEdxi r = r_dEdxi s /\ r_dEdxo r = r_dEdxo s /\
  r_sigma_r r = r_sigma_r s /\ r_sigma_x r = r_sigma_x s /\ r_cov r = r_cov s /\ r_tof r = r_tof s /\ r_sp r = r_sp s.
Ltac both H1 H2 x := apply bind_ok in H1; destruct H1 as (x & ?E & H1); apply bind_ok in H2; let y := fresh "y" in destruct H2 as (y & ?E & H2);
  match goal with E1 : _ = Ok x, E2 : _ = Ok y |- _ => let Q := fresh "Q" in assert (Q : @Ok _ x = Ok y) by (rewrite <- E1, <- E2; reflexivity); injection Q as <-; clear E2 end.
(** the option changes no field of a result but sigma_E and sigma_a, sigma_a only with the angular tables, and no field at all when the outgoing energy is not above the limit *)
Theorem C66_thin p t c w r w1 s w2 : calculate_b junk on p t c w = Ok (r, w1) -> calculate_b junk off p t c w = Ok (s, w2) ->
  w1 = w2 /\ but_sigma r s /\ (c_scat c <> sc_atima -> r_sigma_a r = r_sigma_a s) /\ (fltb (fmul thin_target_limit (r_Ein r)) (r_Eout r) = false -> r = s).
Proof.
  intros H1 H2. unfold calculate_b in *. cbv zeta in *. destruct (_ && _).
  { injection H1 as <- <-. injection H2 as <- <-. split; [reflexivity|]. split; [unfold but_sigma; repeat (split; [reflexivity|]); reflexivity|]. split; intros; reflexivity. }
  both H1 H2 x. destruct x as [d w3]. both H1 H2 x. destruct x as [rs w4]. both H1 H2 x. destruct x as [rss w5]. both H1 H2 rg. both H1 H2 dr. both H1 H2 sv.
  destruct (feqb (m_th t) _).
  { injection H1 as <- <-. injection H2 as <- <-. split; [reflexivity|]. split; [unfold but_sigma; repeat (split; [reflexivity|]); reflexivity|]. split; intros; reflexivity. }
  both H1 H2 Eo. apply bind_ok in H1. destruct H1 as ([[[[x1 x2] x3] x4] w6] & X & H1). apply bind_ok in H2. destruct H2 as ([[[[y1 y2] y3] y4] w7] & Y & H2).
  assert (B : x1 = y1 /\ (c_scat c <> sc_atima -> x3 = y3) /\ x4 = y4 /\ w6 = w7 /\ (fltb (fmul thin_target_limit (pT p)) Eo = false -> x2 = y2 /\ x3 = y3)).
  { clear H1 H2. destruct (fltb Eo _); [injection X as <- <- <- <- <-; injection Y as <- <- <- <- <-; repeat (split; [intros; reflexivity|]); intros; split; reflexivity|].
    both X Y x. destruct x as [avs w8]. both X Y do_. apply bind_ok in X. destruct X as (sE & XE & X). apply bind_ok in Y. destruct Y as (sF & YE & Y). apply bind_ok in X. destruct X as (sa & XA & X). apply bind_ok in Y. destruct Y as (sb & YA & Y).
    apply bind_ok in X. destruct X as ([sc w9] & XB & X). apply bind_ok in Y. destruct Y as ([sd w10] & YB & Y).
    assert (w9 = w10 /\ (c_scat c <> sc_atima -> sc = sd) /\ (fltb (fmul thin_target_limit (pT p)) Eo = false -> sc = sd)) as (<- & SC1 & SC2).
    { assert (SAB : (c_scat c <> sc_atima -> sa = sb) /\ (fltb (fmul thin_target_limit (pT p)) Eo = false -> sa = sb)).
      { destruct (Z.eqb_spec (c_scat c) sc_atima) as [C|C]; [|split; intros; congruence]. split; [congruence|]. intros LT. unfold sigma_a_b, sigma_a_of in XA, YA. cbn [thin_approximation on off] in XA, YA. rewrite LT in XA. congruence. }
      destruct (_ && _).
      - change (angular_straggling_b junk off p t c w8) with (angular_straggling_b junk on p t c w8) in YB. rewrite XB in YB. injection YB as <- <-. repeat (split; [intros; reflexivity|]); intros; reflexivity.
      - injection XB as <- <-. injection YB as <- <-. split; [reflexivity|]. exact SAB. }
    both X Y tof. injection X as <- <- <- <- <-. injection Y as <- <- <- <- <-. split; [reflexivity|]. split; [exact SC1|]. split; [reflexivity|]. split; [reflexivity|]. intros LT. split; [|exact (SC2 LT)].
    unfold sigma_E_b, sigma_E_of in XE, YE. cbn [thin_approximation on off] in XE, YE. rewrite LT in XE. congruence. }
  destruct B as (<- & B3 & <- & <- & B5). both H1 H2 x. destruct x as [vx w8]. both H1 H2 x. destruct x as [cov w9]. both H1 H2 x. destruct x as [sp w10]. injection H1 as <- <-. injection H2 as <- <-.
  cbn [r_Ein r_Eout r_sigma_a]. split; [reflexivity|]. split; [unfold but_sigma; cbn [r_Ein r_Eout r_Eloss r_range r_dEdxi r_dEdxo r_sigma_r r_sigma_x r_cov r_tof r_sp]; repeat (split; [reflexivity|]); reflexivity|]. split; [exact B3|]. intros LT. destruct (B5 LT) as [-> ->]. reflexivity.
Qed.
(** in a stack: the results of the layers agree but for sigma_E and sigma_a, and the totals agree in all fields that do not sum those *)
Definition thick (r : Result F) : Prop := fltb (fmul thin_target_limit (r_Ein r)) (r_Eout r) = false.
Definition total_agrees (r s : Result F) : Prop :=
  r_Ein r = r_Ein s /\ r_Eout r = r_Eout s /\ r_Eloss r = r_Eloss s /\ r_range r = r_range s /\ r_dEdxi r = r_dEdxi s /\ r_dEdxo r = r_dEdxo s /\ r_sigma_r r = r_sigma_r s /\ r_tof r = r_tof s /\ r_sp r = r_sp s.
Lemma loop_thin p c : forall ls e tot tot' w rs e1 tot1 w1 rs' e2 tot2 w2, total_agrees tot tot' ->
  layers_loop_b junk on p c ls e tot w = Ok (rs, e1, tot1, w1) -> layers_loop_b junk off p c ls e tot' w = Ok (rs', e2, tot2, w2) ->
  w1 = w2 /\ e1 = e2 /\ Forall2 but_sigma rs rs' /\ total_agrees tot1 tot2 /\ (Forall thick rs -> tot = tot' -> rs = rs' /\ tot1 = tot2).
Proof.
  induction ls as [|m ls IH]; intros e tot tot' w rs e1 tot1 w1 rs' e2 tot2 w2 T H1 H2; cbn [layers_loop_b] in *.
  { injection H1 as <- <- <- <-. injection H2 as <- <- <- <-. split; [reflexivity|]. split; [reflexivity|]. split; [constructor|]. split; [exact T|]. auto. }
  apply bind_ok in H1. destruct H1 as ([r w3] & C1 & H1). apply bind_ok in H2. destruct H2 as ([r' w4] & C2 & H2). destruct (C66_thin _ _ _ _ _ _ _ _ C1 C2) as (<- & B & _ & TH).
  apply bind_ok in H1. destruct H1 as ([[[rs1 e3] tot3] w5] & L1 & H1). apply bind_ok in H2. destruct H2 as ([[[rs2 e4] tot4] w6] & L2 & H2). injection H1 as <- <- <- <-. injection H2 as <- <- <- <-.
  assert (EO : r_Eout r = r_Eout r') by apply B. rewrite <- EO in L2.
  assert (T2 : total_agrees (layer_update_b on m r tot) (layer_update_b off m r' tot')).
  { destruct T as (T1 & T2 & T3 & T4 & T5 & T6 & T7 & T8 & T9). destruct B as (B1 & B2 & B3 & B4 & B5 & B6 & B7 & B8 & B9 & B10 & B11). unfold total_agrees, layer_update_b, layer_update. change (reactions off) with (reactions on). destruct (reactions on); cbn [r_Ein r_Eout r_Eloss r_range r_dEdxi r_dEdxo r_sigma_r r_tof r_sp]; rewrite T1, T3, T4, T5, T6, T7, T8, T9, B2, B3, B10, ?B11; repeat (split; [reflexivity|]); reflexivity. }
  destruct (IH _ _ _ _ _ _ _ _ _ _ _ _ T2 L1 L2) as (W & E & FB & TA & EQ). split; [exact W|]. split; [exact E|]. split; [constructor; assumption|]. split; [exact TA|].
  intros TK TT. inversion TK as [|? ? K1 K2]; subst. pose proof (TH K1) as RR. subst r'. destruct (EQ K2 eq_refl) as [-> ->]. split; reflexivity.
Qed.
Theorem C66_thin_layers p ps ls c w r w1 s w2 : calculate_layers_b junk on p ps ls c w = Ok (r, w1) -> calculate_layers_b junk off p ps ls c w = Ok (s, w2) ->
  w1 = w2 /\ Forall2 but_sigma (mr_results r) (mr_results s) /\ total_agrees (mr_total r) (mr_total s) /\ (Forall thick (mr_results r) -> r = s).
Proof.
  intros H1 H2. unfold calculate_layers_b in *. apply bind_ok in H1. destruct H1 as ([[[rs1 e3] tot3] w5] & L1 & H1). apply bind_ok in H2. destruct H2 as ([[[rs2 e4] tot4] w6] & L2 & H2). injection H1 as <- <-. injection H2 as <- <-.
  destruct (loop_thin p c ls (pT p) (total0 p ps) (total0 p ps) w rs1 e3 tot3 w5 rs2 e4 tot4 w6 ltac:(unfold total_agrees; repeat (split; [reflexivity|]); reflexivity) L1 L2) as (-> & -> & FB & (T1 & T2 & T3 & T4 & T5 & T6 & T7 & T8 & T9) & EQ). cbn [mr_results mr_total].
  split; [reflexivity|]. split; [exact FB|]. split; [unfold total_agrees, total_finish; destruct (fltb Ezero e4); cbn [r_Ein r_Eout r_Eloss r_range r_dEdxi r_dEdxo r_sigma_r r_tof r_sp]; repeat (split; [assumption|]); assumption|].
  intros TK. destruct (EQ TK eq_refl) as [-> ->]. reflexivity.
Qed.
(** and the state of the library never depends on the option *)
Theorem C66_thin_state : forall h w w1 w2, exec_all_b junk on h w = Ok w1 -> exec_all_b junk off h w = Ok w2 -> w1 = w2.
Proof.
  induction h as [|q h IH]; intros w w1 w2 H1 H2; unfold exec_all_b in *; cbn [ofold] in *; [congruence|].
  destruct (exec_b junk on q w) as [[x w3]|] eqn:E1; [|discriminate]. destruct (exec_b junk off q w) as [[y w4]|] eqn:E2; [|discriminate]. cbn [omap bind snd] in *.
  assert (w3 = w4) as <-; [|exact (IH _ _ _ H1 H2)]. clear H1 H2.
  assert (S : exec_b junk off q w = exec_b junk on q w -> w3 = w4) by (intros Q; rewrite E1, E2 in Q; congruence).
  destruct q. 1-14, 17-18: apply S; reflexivity. all: clear S; cbn [exec_b] in *.
  - destruct (calculate_b junk on _ _ _ w) as [[r w5]|] eqn:C1; [|discriminate]. destruct (calculate_b junk off _ _ _ w) as [[r' w6]|] eqn:C2; [|discriminate]. injection E1 as _ <-. injection E2 as _ <-. apply (C66_thin _ _ _ _ _ _ _ _ C1 C2).
  - destruct (calculate_layers_b junk on _ _ _ _ w) as [[r w5]|] eqn:C1; [|discriminate]. destruct (calculate_layers_b junk off _ _ _ _ w) as [[r' w6]|] eqn:C2; [|discriminate]. injection E1 as _ <-. injection E2 as _ <-. apply (C66_thin_layers _ _ _ _ _ _ _ _ _ C1 C2).
Qed.
End Thin.
End Any.

(** over the reals, for ions and targets within the tables: a call returns with the approximation exactly when it returns without it *)
Local Open Scope R_scope.
Section Defined.
Variable junk : nat -> R * R.
Variable react : bool.
Lemma thin_back a b p t c w r w' : legit_p p -> legit_t t -> world_ok w -> calculate_b junk (mkBuild true a react) p t c w = Ok (r, w') ->
  world_ok w' /\ exists s, calculate_b junk (mkBuild true b react) p t c w = Ok (s, w').
Proof.
  intros LP LT W H. unfold calculate_b in *. cbv zeta in *. destruct (_ && _); [injection H as <- <-; split; [exact W|eexists; reflexivity]|].
  change (lookup_b junk (mkBuild true a react)) with (lookup_b junk default_build) in H. change (lookup_b junk (mkBuild true b react)) with (lookup_b junk default_build). rewrite lookup_default in *.
  destruct (lookup_total junk p t c w LP LT W) as (d & w1 & L & OD & OW & _). rewrite L in *. pose proof (again junk p t c w d w1 (proj1 W) (self_key_R p t c) L) as A. cbn [bind] in *.
  change (get_range_spline junk (mkBuild true a react) d w1) with (@Ok (option (spline R) * world R) (dp_range_spline d, w1)) in H. change (get_range_spline junk (mkBuild true b react) d w1) with (@Ok (option (spline R) * world R) (dp_range_spline d, w1)). cbn [bind] in *.
  change (get_range_straggling_spline junk (mkBuild true a react) d w1) with (@Ok (option (spline R) * world R) (dp_rs_spline d, w1)) in H. change (get_range_straggling_spline junk (mkBuild true b react) d w1) with (@Ok (option (spline R) * world R) (dp_rs_spline d, w1)). cbn [bind] in *.
  apply bind_ok in H. destruct H as (rg & E1 & H). rewrite E1. apply bind_ok in H. destruct H as (dr & E2 & H). rewrite E2. apply bind_ok in H. destruct H as (sv & E3 & H). rewrite E3. cbn [bind] in *.
  destruct (feqb (m_th t) _); [injection H as <- <-; split; [exact OW|eexists; reflexivity]|]. apply bind_ok in H. destruct H as (Eo & E4 & H). rewrite E4. cbn [bind].
  apply bind_ok in H. destruct H as ([[[[x1 x2] x3] x4] w2] & E5 & H).
  match goal with |- _ /\ exists s, bind ?X _ = _ => assert (X5 : w2 = w1 /\ exists y2 y3, X = Ok (x1, y2, y3, x4, w1)) end.
  { clear H. destruct (fltb Eo _); [injection E5 as <- <- <- <- <-; split; [reflexivity|do 2 eexists; reflexivity]|].
    change (get_angular_variance_spline junk (mkBuild true a react) d w1) with (@Ok (option (spline R) * world R) (dp_av_spline d, w1)) in E5. change (get_angular_variance_spline junk (mkBuild true b react) d w1) with (@Ok (option (spline R) * world R) (dp_av_spline d, w1)). cbn [bind] in *.
    apply bind_ok in E5. destruct E5 as (do_ & D1 & E5). rewrite D1. cbn [bind].
    assert (DE : defined (sigma_E_b (mkBuild true b react) p (dp_rs_spline d) (pT p) Eo (fdiv (pA p) do_))).
    { unfold sigma_E_b, sigma_E_of. destruct (thin_approximation _); [destruct (fltb (fmul thin_target_limit (pT p)) Eo)|]; repeat (dbind; [first [now apply dp_rs_d_ok|now apply dp_rs_ok]|]); apply defined_Ok. }
    assert (DA : defined (if Z.eqb (c_scat c) sc_atima then sigma_a_b (mkBuild true b react) (dp_av_spline d) (pT p) Eo else Ok (lit 0.0))).
    { destruct (Z.eqb _ _); [|apply defined_Ok]. unfold sigma_a_b, sigma_a_of. destruct (thin_approximation _); [destruct (fltb (fmul thin_target_limit (pT p)) Eo)|]; repeat (dbind; [first [now apply dp_av_d_ok|now apply dp_av_ok]|]); apply defined_Ok. }
    destruct DE as [sE DE]. destruct DA as [sA DA]. rewrite DE, DA. cbn [bind].
    apply bind_ok in E5. destruct E5 as (sE' & _ & E5). apply bind_ok in E5. destruct E5 as (sa & _ & E5). apply bind_ok in E5. destruct E5 as ([sb w3] & E6 & E5). apply bind_ok in E5. destruct E5 as (tof & TF & E5). injection E5 as <- <- <- <- <-.
    destruct (_ && _).
    - pose proof (straggling_keeps junk p t c w1 d sb w3 A E6) as ->. change (angular_straggling_b junk (mkBuild true b react) p t c w1) with (angular_straggling_b junk (mkBuild true a react) p t c w1). rewrite E6. cbn [bind]. rewrite TF. split; [reflexivity|do 2 eexists; reflexivity].
    - injection E6 as <- <-. cbn [bind]. rewrite TF. split; [reflexivity|do 2 eexists; reflexivity]. }
  destruct X5 as (-> & y2 & y3 & ->). cbn [bind].
  apply bind_ok in H. destruct H as ([vx w3] & V1 & H). pose proof (variance_keeps junk p t c 2 w1 d vx w3 A V1) as ->. change (angular_variance_b junk (mkBuild true b react) p t c 2 w1) with (angular_variance_b junk (mkBuild true a react) p t c 2 w1). rewrite V1. cbn [bind].
  apply bind_ok in H. destruct H as ([cov w4] & V2 & H). pose proof (variance_keeps junk p t c 1 w1 d cov w4 A V2) as ->. change (angular_variance_b junk (mkBuild true b react) p t c 1 w1) with (angular_variance_b junk (mkBuild true a react) p t c 1 w1). rewrite V2. cbn [bind].
  apply bind_ok in H. destruct H as ([sp w5] & V3 & H). injection H as <- <-.
  match goal with |- _ /\ exists s, bind ?X _ = _ => assert (X6 : w5 = w1 /\ X = Ok (sp, w1)) end.
  { cbn [reactions] in *. destruct react; [|injection V3 as <- <-; split; reflexivity]. pose proof (rate_keeps junk p t c w1 d sp w5 A V3) as ->. split; [reflexivity|exact V3]. }
  destruct X6 as (-> & ->). cbn [bind]. split; [exact OW|eexists; reflexivity].
Qed.
Theorem C66_thin_defined a b p t c w r w' : legit_p p -> legit_t t -> world_ok w -> calculate_b junk (mkBuild true a react) p t c w = Ok (r, w') ->
  exists s, calculate_b junk (mkBuild true b react) p t c w = Ok (s, w').
Proof. intros LP LT W H. apply (thin_back a b p t c w r w' LP LT W H). Qed.
Theorem C66_thin_layers_defined a b p ps ls c w r w' : legit_p p -> Forall legit_t ls -> world_ok w -> calculate_layers_b junk (mkBuild true a react) p ps ls c w = Ok (r, w') ->
  exists s, calculate_layers_b junk (mkBuild true b react) p ps ls c w = Ok (s, w').
Proof.
  intros LP LT W H. unfold calculate_layers_b in *. apply bind_ok in H. destruct H as ([[[rs e] tot] w1] & H & E). injection E as <- <-.
  assert (L : exists rs' tot', layers_loop_b junk (mkBuild true b react) p c ls (pT p) (total0 p ps) w = Ok (rs', e, tot', w1)).
  { enough (G : forall x ta tb w rs e tot w1, world_ok w -> layers_loop_b junk (mkBuild true a react) p c ls x ta w = Ok (rs, e, tot, w1) -> exists rs' tot', layers_loop_b junk (mkBuild true b react) p c ls x tb w = Ok (rs', e, tot', w1)) by (eapply G; eassumption). clear - LP LT. induction LT as [|m ls M LT IH]; intros x ta tb w rs e tot w1 W H; cbn [layers_loop_b] in *; [injection H as <- <- <- <-; do 2 eexists; reflexivity|].
    apply bind_ok in H. destruct H as ([r w2] & C1 & H). apply bind_ok in H. destruct H as ([[[rs1 e1] tot1] w3] & L1 & H). injection H as <- <- <- <-.
    destruct (thin_back a b (at_T p x) m c w r w2 (legit_at p x LP) M W C1) as (W2 & s & C2). rewrite C2. cbn [bind].
    assert (EO : r_Eout r = r_Eout s).
    { destruct a, b; [congruence| | |congruence]; [destruct (C66_thin junk true react _ _ _ _ _ _ _ _ C1 C2) as (_ & B & _)|destruct (C66_thin junk true react _ _ _ _ _ _ _ _ C2 C1) as (_ & B & _)]; [apply B|symmetry; apply B]. }
    rewrite <- EO. destruct (IH (r_Eout r) (layer_update_b (mkBuild true a react) m r ta) (layer_update_b (mkBuild true b react) m s tb) w2 rs1 e1 tot1 w3 W2 L1) as (rs2 & tot2 & L2). rewrite L2. do 2 eexists. reflexivity. }
  destruct L as (rs' & tot' & ->). eexists. reflexivity.
Qed.
End Defined.

(** the entries that were never written are where the builds part: the library with stored splines answers a request without energies for
    the default projectile and material, the one without reads 600 values of an empty table *)
Theorem C66_untouched_refuted : exists (p : Projectile R) t c, key_match p t c DataPoint0 = true /\
  forall thin react, dedx_from_range_v_b junk0 (mkBuild true thin react) p [] t c world0 = Ok ([], world0) /\
    dedx_from_range_v_b junk0 (mkBuild false thin react) p [] t c world0 = UB OutOfBounds.
Proof.
  exists Projectile0, Material0, Config0. assert (K : key_match (F:=R) Projectile0 Material0 Config0 DataPoint0 = true).
  { destruct (self_key_R Projectile0 Material0 Config0) as (A & B & C). unfold key_match. cbn [DataPoint0 dp_p dp_m dp_c]. rewrite A, B, C. reflexivity. }
  split; [exact K|]. intros thin react.
  assert (G : forall s, lookup_b junk0 (mkBuild s thin react) Projectile0 Material0 Config0 (world0 (F:=R)) = Ok (DataPoint0, world0)).
  { intros s. unfold lookup_b, data_get_b. assert (FS : find_slot (key_match (F:=R) Projectile0 Material0 Config0) (w_slots world0) = Some 0%nat).
    { cbn [world0 w_slots]. change max_storage_data with (S (pred max_storage_data)). cbn [repeat find_slot]. rewrite K. reflexivity. }
    rewrite FS. reflexivity. }
  split; unfold dedx_from_range_v_b; rewrite G; cbn [bind]; reflexivity.
Qed.

(** protons of 100 MeV/u through three layers of nitrogen: all builds get through, and agree as said *)
Example C66_case : exists r w', calculate_layers_b junk0 default_build (proton_at 100) (mkPS 0 0 0) [gas (1 / 800) (1 / 1000); gas (1 / 800) 0; gas (1 / 10) 20] conf world0 = Ok (r, w') /\
  calculate_layers_b junk0 (mkBuild true true false) (proton_at 100) (mkPS 0 0 0) [gas (1 / 800) (1 / 1000); gas (1 / 800) 0; gas (1 / 10) 20] conf world0 = Ok (mkMulti (map (fun x => with_sp x 1) (mr_results r)) (with_sp (mr_total r) 1), w') /\
  (exists s, calculate_layers_b junk0 (mkBuild true false true) (proton_at 100) (mkPS 0 0 0) [gas (1 / 800) (1 / 1000); gas (1 / 800) 0; gas (1 / 10) 20] conf world0 = Ok (s, w') /\ Forall2 but_sigma (mr_results r) (mr_results s) /\ total_agrees (mr_total r) (mr_total s)) /\
  omap fst (exec_b junk0 (mkBuild false true true) (CLayers (proton_at 100) (mkPS 0 0 0) [gas (1 / 800) (1 / 1000); gas (1 / 800) 0; gas (1 / 10) 20] conf) world0) = Ok (concat (map result_list (mr_results r)) ++ result_list (mr_total r)).
Proof.
  destruct C65_proton_layers_case as (r & w' & H). exists r, w'. split; [exact H|].
  assert (ONE : lit (Num:=NumR) 1.0 = 1) by (numR; dec_norm; lra).
  split.
  { pose proof (C66_no_reactions_layers junk0 true (proton_at 100) (mkPS 0 0 0) [gas (1 / 800) (1 / 1000); gas (1 / 800) 0; gas (1 / 10) 20] conf world0 r w' wf_world0 (fun e m _ => self_key_R _ _ _) H) as [Q _]. rewrite ONE in Q. exact Q. }
  split.
  { destruct (C66_thin_layers_defined junk0 true true false (proton_at 100) (mkPS 0 0 0) [gas (1 / 800) (1 / 1000); gas (1 / 800) 0; gas (1 / 10) 20] conf world0 r w') as [s HS]; [apply legit_at, proton_legit|constructor; [apply gas_legit|constructor; [apply gas_legit|constructor; [apply gas_legit|constructor]]]|apply world_ok0|exact H|].
    exists s. split; [exact HS|]. destruct (C66_thin_layers junk0 true true (proton_at 100) (mkPS 0 0 0) [gas (1 / 800) (1 / 1000); gas (1 / 800) 0; gas (1 / 10) 20] conf world0 r w' s w' H HS) as (_ & B & T & _). split; assumption. }
  assert (TWO : feqb (lit (Num:=NumR) 2.0) (lit 0.0) = false) by (numR; apply Reqb_false; dec_norm; lra).
  pose proof (C66_store_splines junk0 (fun _ => eq_refl) TWO true true [] (CLayers (proton_at 100) (mkPS 0 0 0) [gas (1 / 800) (1 / 1000); gas (1 / 800) 0; gas (1 / 10) 20] conf) ltac:(constructor)) as Q.
  unfold exec_all_b in Q. cbn [ofold bind] in Q. rewrite <- Q.
  - cbn [exec_b]. match goal with |- omap _ (omap _ ?X) = _ => replace X with (Ok (r, w')) by (symmetry; exact H) end. reflexivity.
  - unfold touched. cbn [keys_of map]. repeat constructor; cbn [fst snd]; apply legit_not_default, legit_at, proton_legit.
Qed.
Print Assumptions C66_default.
Print Assumptions C66_store_splines.
Print Assumptions C66_untouched_refuted.
Print Assumptions C66_no_reactions.
Print Assumptions C66_no_reactions_layers.
Print Assumptions C66_no_reactions_state.
Print Assumptions C66_thin.
Print Assumptions C66_thin_layers.
Print Assumptions C66_thin_state.
Print Assumptions C66_thin_defined.
Print Assumptions C66_thin_layers_defined.
Print Assumptions C66_case.
