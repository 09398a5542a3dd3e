(** * C64: the unit tests that compare results of [calculate] with each other, in any arithmetic

    tests/test_calculations.cpp:366-570.  These checks say that two calls give the same value, so they
    hold of the model whatever the tables contain; that the calls return is a hypothesis. *)
From Coq Require Import ZArith Reals List Bool Lra Lia Floats.
From Verif Require Import Num NumR NumF Structures EnergyTable Spline Calculations NucData Reactions Storage Catima CacheProofs CacheFresh
  LayerProofs EnergyOutProofs PropEnergyOut PropLayers Cases TotalProofs ApiTotal.
Import ListNotations.

Section Calls.
Context {F : Type} {N : Num F}.
Variable junk : nat -> F * F.

Lemma at_same (p : Projectile F) : at_T p (pT p) = p.
Proof. destruct p; reflexivity. Qed.
Lemma set_same (t : Material F) : set_thickness t (m_th t) = t.
Proof. destruct t; reflexivity. Qed.
Lemma again p t c w d w1 : wf w -> self_key p t c -> lookup junk p t c w = Ok (d, w1) -> lookup junk p t c w1 = Ok (d, w1).
Proof.
  intros W K L. destruct (lookup_again junk w p t c d w1 (pT p) (m_th t) W K L) as [H _]. rewrite at_same, set_same in H. exact H.
Qed.
Lemma snd_ok {A B} (a a' : A) (b b' : B) : Ok (a, b) = Ok (a', b') -> b = b'.
Proof. intros H. now injection H. Qed.
Lemma fst_ok {A B} (a a' : A) (b b' : B) : Ok (a, b) = Ok (a', b') -> a = a'.
Proof. intros H. now injection H. Qed.
(** the functions that ask again for the tables of a call leave the state as it is *)
Lemma variance_keeps p t c o w d v w' : lookup junk p t c w = Ok (d, w) -> angular_variance junk p t c o w = Ok (v, w') -> w' = w.
Proof.
  intros L H. unfold angular_variance in H. rewrite L in H. cbn [bind] in H. apply bind_ok in H. destruct H as (x & _ & H). symmetry. exact (snd_ok _ _ _ _ H).
Qed.
Lemma straggling_keeps p t c w d v w' : lookup junk p t c w = Ok (d, w) -> angular_straggling junk p t c w = Ok (v, w') -> w' = w.
Proof.
  intros L H. unfold angular_straggling in H. apply bind_ok in H. destruct H as ([x w3] & H & E). rewrite (variance_keeps _ _ _ _ _ _ _ _ L H) in E. symmetry. exact (snd_ok _ _ _ _ E).
Qed.
Lemma rate_keeps p t c w d v w' : lookup junk p t c w = Ok (d, w) -> nonreaction_rate junk p t c w = Ok (v, w') -> w' = w.
Proof.
  intros L H. unfold nonreaction_rate in H. destruct (fltb _ _); [symmetry; exact (snd_ok _ _ _ _ H)|]. destruct (fleb _ _); [symmetry; exact (snd_ok _ _ _ _ H)|].
  apply bind_ok in H. destruct H as (a & _ & H). apply bind_ok in H. destruct H as (z & _ & H). rewrite L in H. cbn [bind] in H.
  apply bind_ok in H. destruct H as (x & _ & H). symmetry. exact (snd_ok _ _ _ _ H).
Qed.
(** the state a call leaves is the one its lookup left *)
Lemma calculate_state p t c w r w' : wf w -> self_key p t c -> too_low (pT p) = false -> calculate junk p t c w = Ok (r, w') ->
  exists d, lookup junk p t c w = Ok (d, w') /\ lookup junk p t c w' = Ok (d, w').
Proof.
  intros W K TL H. destruct (calculate_inv junk p t c w r w' H) as [(X & _)|(_ & d & w1 & rg & dr & sv & L & _ & _ & _ & X)]; [congruence|].
  pose proof (again p t c w d w1 W K L) as A. exists d. destruct X as [(_ & -> & _)|(_ & Eout & dEdxo & sE & sa & tof & w2 & vx & w3 & cov & w4 & sp & _ & EX & VX & CV & SP & _)]; [split; assumption|].
  assert (w2 = w1).
  { destruct EX as [(_ & _ & _ & _ & _ & ->)|(_ & do_ & sa1 & _ & _ & _ & _ & SA & _)]; [reflexivity|].
    destruct (negb _ && _); [exact (straggling_keeps _ _ _ _ _ _ _ A SA)|symmetry; exact (snd_ok _ _ _ _ SA)]. }
  subst w2. pose proof (variance_keeps _ _ _ _ _ _ _ _ A VX) as ->. pose proof (variance_keeps _ _ _ _ _ _ _ _ A CV) as ->. pose proof (rate_keeps _ _ _ _ _ _ _ A SP) as ->.
  split; assumption.
Qed.
Lemma calculate_lookup p t c w1 w2 : too_low (pT p) = false -> (exists d w', lookup junk p t c w1 = Ok (d, w') /\ lookup junk p t c w2 = Ok (d, w')) ->
  calculate junk p t c w1 = calculate junk p t c w2.
Proof.
  intros TL (d & w' & L1 & L2). unfold calculate. cbv zeta. unfold too_low in TL. rewrite TL, L1, L2. reflexivity.
Qed.

(** test_calculations.cpp:395-411 "constant results from material": the second call returns the same result
    and changes nothing *)
Theorem C64_constant_results p t c w r w' : wf w -> self_key p t c ->
  calculate junk p t c w = Ok (r, w') -> calculate junk p t c w' = Ok (r, w').
Proof.
  intros W K H. destruct (too_low (pT p)) eqn:TL.
  - destruct (calculate_inv junk p t c w r w' H) as [(_ & _ & ->)|(X & _)]; [exact H|congruence].
  - destruct (calculate_state p t c w r w' W K TL H) as (d & L1 & L2). rewrite <- H. apply calculate_lookup; [exact TL|]. exists d, w'. split; assumption.
Qed.

(** test_calculations.cpp:412-440 "simplified calculation", the functions that compute one field of the result,
    called after it *)
Theorem C64_single_fields p t c w r w' : wf w -> self_key p t c -> too_low (pT p) = false ->
  calculate junk p t c w = Ok (r, w') ->
  dedx_from_range junk p t c w' = Ok (r_dEdxi r, w') /\ range junk p t c w' = Ok (r_range r, w') /\
  range_straggling junk p (pT p) t c w' = Ok (r_sigma_r r, w') /\
  ((m_th t =? lit 0)%num = false -> energy_out junk p t c w' = Ok (r_Eout r, w') /\
    ((r_Eout r <? Ezero)%num = false -> (thin_target_limit * pT p <? r_Eout r)%num = false ->
       energy_straggling_from_E junk p (r_Ein r) (r_Eout r) t c w' = Ok (r_sigma_E r, w'))).
Proof.
  intros W K TL H. destruct (calculate_state p t c w r w' W K TL H) as (d & L1 & L2).
  destruct (calculate_inv junk p t c w r w' H) as [(X & _)|(_ & d' & w1 & rg & dr & sv & L & RG & DR & SV & X)]; [congruence|].
  rewrite L1 in L. injection L as <- <-. unfold dedx_from_range, range, range_straggling, energy_out, energy_straggling_from_E. rewrite L2. cbn [bind]. rewrite RG, DR, SV. cbn [bind].
  destruct X as [(TH & _ & ->)|(TH & Eout & dEdxo & sE & sa & tof & w2 & vx & w3 & cov & w4 & sp & EO & EX & VX & CV & SP & ->)]; cbn [r_dEdxi r_range r_sigma_r r_Eout r_Ein r_sigma_E].
  - do 3 (split; [reflexivity|]). congruence.
  - do 3 (split; [reflexivity|]). intros _. rewrite EO. cbn [bind]. split; [reflexivity|]. intros HE HN.
    destruct EX as [(X & _)|(_ & do_ & sa1 & DO & -> & SE & _)]; [congruence|]. rewrite DO. cbn [bind]. rewrite SV. cbn [bind]. unfold sigma_E_of in SE. rewrite HN, SV in SE. cbn [bind] in SE.
    destruct (interp_eval (dp_rs_spline d) Eout) as [v2|]; [|discriminate SE]. cbn [bind] in SE |- *. cbv zeta. injection SE as <-. reflexivity.
Qed.

(** test_calculations.cpp:543-570 "vector_inputs": the vector versions answer like one call per energy *)
Theorem C64_vector_inputs p Ts t c w l w' i e : wf w -> self_key p t c -> nth_error Ts i = Some e -> (e <? Ezero)%num = false ->
  (energy_out_v junk p Ts t c w = Ok (l, w') -> length l = length Ts /\ exists v, nth_error l i = Some v /\ energy_out junk (at_T p e) t c w' = Ok (v, w')) /\
  (dedx_from_range_v junk p Ts t c w = Ok (l, w') -> length l = length Ts /\ exists v, nth_error l i = Some v /\ dedx_from_range junk (at_T p e) t c w' = Ok (v, w')).
Proof.
  intros W K HI HE.
  assert (LEN : forall (f : F -> outcome F) m l', omapM f m = Ok l' -> length l' = length m).
  { intros f. induction m as [|a m IH]; intros l' H; cbn [omapM] in H; [injection H as <-; reflexivity|]. apply bind_ok in H. destruct H as (b & _ & H). apply bind_ok in H. destruct H as (bs & Hb & H). injection H as <-. cbn [length]. now rewrite (IH _ Hb). }
  assert (LK : forall d w1, lookup junk p t c w = Ok (d, w1) -> lookup junk (at_T p e) t c w1 = Ok (d, w1)).
  { intros d w1 L. destruct (lookup_again junk w p t c d w1 e (m_th t) W K L) as [A _]. rewrite set_same in A. exact A. }
  split; intros H; [unfold energy_out_v in H|unfold dedx_from_range_v in H]; apply bind_ok in H; destruct H as ([d w1] & L & H); apply bind_ok in H; destruct H as (l0 & M & H);
    injection H as <- <-; (split; [exact (LEN _ _ _ M)|]); destruct (omapM_nth _ _ _ _ _ M HI) as (y & HY & E); cbn beta in E; rewrite HE in E; exists y; (split; [exact HY|]).
  - unfold energy_out. rewrite (LK d w1 L). cbn [bind]. change (pT (at_T p e)) with e. rewrite E. reflexivity.
  - unfold dedx_from_range. rewrite (LK d w1 L). cbn [bind]. change (pT (at_T p e)) with e. change (pA (at_T p e)) with (pA p). apply bind_ok in E. destruct E as (q & Q & E). rewrite Q. cbn [bind]. injection E as <-. reflexivity.
Qed.
(** *** Two materials asked for one after the other *)
Lemma absent_lookup p t c w d w' : wf w -> (forall e, In e (w_slots w) -> key_match p t c e = false) -> lookup junk p t c w = Ok (d, w') ->
  rcalc junk calculate_DataPoint (w_junk w) p t c = Ok d /\ w' = inserted w d.
Proof.
  intros W A L. unfold lookup in L. apply bind_ok in L. destruct L as ([i w1] & G & L). apply bind_ok in L. destruct L as (d' & S & L). injection L as <- <-.
  destruct (get_spec junk calculate_DataPoint w p t c W) as [(i' & e & G' & _ & EI & M)|(_ & [(why & _ & G')|(e & RC & G' & EI)])]; rewrite G in G'.
  - exfalso. apply nth_error_In in EI. rewrite (A _ EI) in M. discriminate M.
  - discriminate G'.
  - injection G' as -> ->. unfold slot in S. rewrite EI in S. injection S as <-. split; [exact RC|reflexivity].
Qed.
Lemma keeps_first p t1 t2 c e w d1 w1 d2 w2 : wf w -> self_key p t1 c -> (forall x, In x (w_slots w) -> key_match p t1 c x = false) -> mat_eqb t2 t1 = false ->
  lookup junk p t1 c w = Ok (d1, w1) -> lookup junk (at_T p e) t2 c w1 = Ok (d2, w2) -> lookup junk p t1 c w2 = Ok (d1, w2).
Proof.
  intros W K A NE L1 L2. pose proof (again p t1 c w d1 w1 W K L1) as AG. destruct (absent_lookup p t1 c w d1 w1 W A L1) as (RC & W1).
  assert (W' : wf w1) by (rewrite W1; now apply wf_inserted).
  destruct (get_spec junk calculate_DataPoint w1 (at_T p e) t2 c W') as [(i & x & G & _ & _ & _)|(A2 & _)].
  { unfold lookup in L2. rewrite G in L2. cbn [bind] in L2. apply bind_ok in L2. destruct L2 as (y & _ & L2). rewrite <- (snd_ok _ _ _ _ L2). exact AG. }
  destruct (absent_lookup _ _ _ _ _ _ W' A2 L2) as (RC2 & W2).
  destruct (rcalc_key junk calculate_DataPoint calc_keys _ _ _ _ _ RC) as (P1 & M1 & C1). destruct (rcalc_key junk calculate_DataPoint calc_keys _ _ _ _ _ RC2) as (P2 & M2 & C2).
  assert (K1 : key_match p t1 c d1 = true). { unfold key_match. rewrite P1, M1, C1. destruct K as (-> & -> & ->). reflexivity. }
  assert (K2 : key_match p t1 c d2 = false). { unfold key_match. rewrite M2, NE. rewrite andb_false_r. reflexivity. }
  assert (CW : cursor w1 <> cursor w). { rewrite W1. unfold cursor at 1. cbn [inserted w_index]. pose proof (cursor_lt w W). destruct (Nat.eqb_spec (S (cursor w)) 60); lia. }
  assert (AT : nth_error (w_slots w2) (cursor w) = Some d1).
  { rewrite W2. cbn [inserted w_slots]. rewrite set_slot_other by assumption. rewrite W1. cbn [inserted w_slots]. apply set_slot_same. now apply cursor_in. }
  assert (W2' : wf w2) by (rewrite W2; now apply wf_inserted).
  destruct (get_spec junk calculate_DataPoint w2 p t1 c W2') as [(i & x & G & _ & EI & M)|(A3 & _)].
  2:{ exfalso. apply nth_error_In in AT. rewrite (A3 _ AT) in K1. discriminate K1. }
  assert (EQ : x = d1).
  { rewrite W2 in EI. cbn [inserted w_slots] in EI. destruct (Nat.eq_dec (cursor w1) i) as [<-|NI].
    { rewrite set_slot_same in EI by now apply cursor_in. injection EI as <-. congruence. }
    rewrite set_slot_other in EI by assumption. rewrite W1 in EI. cbn [inserted w_slots] in EI. destruct (Nat.eq_dec (cursor w) i) as [<-|NJ].
    { rewrite set_slot_same in EI by now apply cursor_in. now injection EI as <-. }
    rewrite set_slot_other in EI by assumption. apply nth_error_In in EI. rewrite (A _ EI) in M. discriminate M. }
  unfold lookup. rewrite G. cbn [bind]. unfold slot. rewrite EI. cbn [bind]. now rewrite EQ.
Qed.
Lemma wf_lookup p t c w d w' : wf w -> lookup junk p t c w = Ok (d, w') -> wf w'.
Proof.
  intros W L. unfold lookup in L. apply bind_ok in L. destruct L as ([i w1] & G & L). apply bind_ok in L. destruct L as (d' & S & L). injection L as <- <-.
  apply (run_wf junk calculate_DataPoint [OpGet p t c] w w1 W). cbn. rewrite G. reflexivity.
Qed.
Lemma key_match_at p e t c x : key_match (at_T p e) t c x = key_match p t c x.
Proof. unfold key_match. destruct p; reflexivity. Qed.

(** two states that hold the same tables for a call, and the same default config, give the same result *)
Lemma variance_elsewhere p t c o d wa wb v : lookup junk p t c wa = Ok (d, wa) -> lookup junk p t c wb = Ok (d, wb) ->
  angular_variance junk p t c o wa = Ok (v, wa) -> angular_variance junk p t c o wb = Ok (v, wb).
Proof.
  intros LA LB H. unfold angular_variance in *. rewrite LA in H. rewrite LB. cbn [bind] in *. apply bind_ok in H. destruct H as (x & -> & H). cbn [bind]. injection H as <-. reflexivity.
Qed.
Lemma same_elsewhere p t c d wa wb r : lookup junk p t c wa = Ok (d, wa) -> lookup junk p t c wb = Ok (d, wb) -> w_default wb = w_default wa ->
  calculate junk p t c wa = Ok (r, wa) -> calculate junk p t c wb = Ok (r, wb).
Proof.
  intros LA LB DE H. destruct (calculate_inv junk p t c wa r wa H) as [(TL & -> & _)|(TL & d' & w1 & rg & dr & sv & L & RG & DR & SV & X)].
  { unfold calculate. cbv zeta. unfold too_low in TL. rewrite TL. reflexivity. }
  rewrite LA in L. injection L as <- <-. unfold calculate. cbv zeta. unfold too_low in TL. rewrite TL, LB. cbn [bind]. rewrite RG. cbn [bind]. rewrite DR. cbn [bind]. rewrite SV. cbn [bind].
  destruct X as [(TH & _ & ->)|(TH & Eout & dEdxo & sE & sa & tof & w2 & vx & w3 & cov & w4 & sp & EO & EX & VX & CV & SP & ->)]; rewrite TH; [reflexivity|]. rewrite EO. cbn [bind].
  assert (w2 = wa).
  { destruct EX as [(_ & _ & _ & _ & _ & ->)|(_ & do_ & sa1 & _ & _ & _ & _ & SA & _)]; [reflexivity|].
    destruct (negb _ && _); [exact (straggling_keeps _ _ _ _ _ _ _ LA SA)|symmetry; exact (snd_ok _ _ _ _ SA)]. }
  subst w2. pose proof (variance_keeps _ _ _ _ _ _ _ _ LA VX) as ->. pose proof (variance_keeps _ _ _ _ _ _ _ _ LA CV) as ->.
  pose proof (variance_elsewhere _ _ _ _ _ _ _ _ LA LB VX) as VX'. pose proof (variance_elsewhere _ _ _ _ _ _ _ _ LA LB CV) as CV'.
  assert (SP' : nonreaction_rate junk p t c wb = Ok (sp, wb)).
  { revert SP. unfold nonreaction_rate. destruct (pT p <? emin_reaction)%num; [intros SP; rewrite (fst_ok _ _ _ _ SP); reflexivity|]. destruct (m_th t <=? lit 0.0)%num; [intros SP; rewrite (fst_ok _ _ _ _ SP); reflexivity|]. intros SP.
    apply bind_ok in SP. destruct SP as (a & -> & SP). apply bind_ok in SP. destruct SP as (z & -> & SP). rewrite LA in SP. rewrite LB. cbn [bind] in *.
    apply bind_ok in SP. destruct SP as (x & -> & SP). cbn [bind]. rewrite (fst_ok _ _ _ _ SP). reflexivity. }
  destruct EX as [(LE & -> & -> & -> & -> & _)|(LE & do_ & sa1 & DO & -> & SE & SA1 & SA & TOF)]; rewrite LE.
  - cbn [bind]. rewrite VX'. cbn [bind]. rewrite CV'. cbn [bind]. rewrite SP'. reflexivity.
  - rewrite DO. cbn [bind]. rewrite SE. cbn [bind]. rewrite SA1. cbn [bind].
    assert (SA' : (if negb (c_scat c =? sc_atima)%Z && fltb (m_th t) rg then angular_straggling junk p t c wb else Ok (sa1, wb)) = Ok (sa, wb)).
    { revert SA. destruct (negb (c_scat c =? sc_atima)%Z && (m_th t <? rg)%num); [|intros SA; rewrite (fst_ok _ _ _ _ SA); reflexivity]. unfold angular_straggling. intros SA. apply bind_ok in SA. destruct SA as ([v w5] & SA & E).
      pose proof (variance_keeps _ _ _ _ _ _ _ _ LA SA) as ->. rewrite (variance_elsewhere _ _ _ _ _ _ _ _ LA LB SA). cbn [bind]. rewrite (fst_ok _ _ _ _ E). reflexivity. }
    rewrite SA'. cbn [bind]. rewrite DE, TOF. cbn [bind]. rewrite VX'. cbn [bind]. rewrite CV'. cbn [bind]. rewrite SP'. reflexivity.
Qed.

(** test_calculations.cpp:441-479 "multilayer basic", its second half: after a stack of two materials was
    calculated, the first material alone gives the first result of the stack *)
Theorem C64_first_layer p ps m1 m2 c w mr w' : wf w -> self_key p m1 c -> (forall e, self_key (at_T p e) m2 c) -> mat_eqb m2 m1 = false ->
  (forall e, In e (w_slots w) -> key_match p m1 c e = false) ->
  calculate_layers junk p ps [m1; m2] c w = Ok (mr, w') ->
  exists r1 r2, mr_results mr = [r1; r2] /\ exists w'', calculate junk p m1 c w' = Ok (r1, w'').
Proof.
  intros W K1 K2 NE A H. unfold calculate_layers in H. apply bind_ok in H. destruct H as ([[[rs e'] tot] w3] & H & E). injection E as <- <-. cbn [mr_results].
  cbn [layers_loop] in H. apply bind_ok in H. destruct H as ([r1 w1] & C1 & H). apply bind_ok in H. destruct H as ([[[rs' e1] tot1] w2] & H & E). injection E as <- <- <- <-.
  apply bind_ok in H. destruct H as ([r2 w2'] & C2 & H). cbn [bind] in H. injection H as <- <- <- <-. rewrite at_same in C1.
  exists r1, r2. split; [reflexivity|]. destruct (too_low (pT p)) eqn:TL.
  - destruct (calculate_inv junk p m1 c w r1 w1 C1) as [(_ & -> & _)|(X & _)]; [|congruence]. exists w2'. unfold calculate. cbv zeta. unfold too_low in TL. rewrite TL. reflexivity.
  - destruct (calculate_state p m1 c w r1 w1 W K1 TL C1) as (d1 & L1 & L1'). pose proof (wf_lookup _ _ _ _ _ _ W L1) as W1.
    destruct (too_low (pT (at_T p (r_Eout r1)))) eqn:TL2.
    { destruct (calculate_inv junk _ m2 c w1 r2 w2' C2) as [(_ & _ & ->)|(X & _)]; [|congruence]. exists w1. exact (C64_constant_results p m1 c w r1 w1 W K1 C1). }
    destruct (calculate_state _ m2 c w1 r2 w2' W1 (K2 _) TL2 C2) as (d2 & L2 & _).
    pose proof (keeps_first p m1 m2 c (r_Eout r1) w d1 w1 d2 w2' W K1 A NE L1 L2) as L3.
    exists w2'. apply (same_elsewhere p m1 c d1 w1 w2' r1); [exact L1'|exact L3| |].
    + pose proof (lookup_keeps junk _ _ _ _ _ _ L2) as D. exact D.
    + exact (C64_constant_results p m1 c w r1 w1 W K1 C1).
Qed.
(** an ion that does not reach the end of the layer *)
Lemma stopped p t c w r w' : (lit 0.0 <? Ezero)%num = true -> too_low (pT p) = false -> (m_th t =? lit 0)%num = false ->
  calculate junk p t c w = Ok (r, w') -> (r_range r <=? m_th t)%num = true ->
  r_Eout r = lit 0.0 /\ r_Eloss r = ((pT p - lit 0.0) * pA p)%num /\ r_sigma_E r = lit 0.0 /\ r_sigma_a r = lit 0.0 /\ r_dEdxo r = lit 0.0 /\ r_tof r = lit 0.0.
Proof.
  intros EZ TL TH H LE. destruct (calculate_inv junk p t c w r w' H) as [(X & _)|(_ & d & w1 & rg & dr & sv & L & RG & DR & SV & X)]; [congruence|].
  destruct X as [(X & _)|(_ & Eout & dEdxo & sE & sa & tof & w2 & vx & w3 & cov & w4 & sp & EO & EX & VX & CV & SP & ->)]; [congruence|]. cbn [r_range r_Eout r_Eloss r_sigma_E r_sigma_a r_dEdxo r_tof] in *.
  unfold energy_out_sp, energy_out_fn in EO. rewrite RG, DR in EO. cbn [bind] in EO. rewrite LE in EO. injection EO as <-.
  destruct EX as [(_ & -> & -> & -> & -> & _)|(X & _)]; [|congruence]. repeat (split; [reflexivity|]). reflexivity.
Qed.
End Calls.
Print Assumptions C64_constant_results.
Print Assumptions C64_single_fields.
Print Assumptions C64_vector_inputs.
Print Assumptions C64_first_layer.

(** ** The tests in double precision, for every libm *)
Section Tests.
Variable lm : Libm.
Variable junk : nat -> float * float.
Local Notation L x := (lit (Num:=NumF lm) x).
Definition ion : Projectile float := Projectile_ (N:=NumF lm) (L 12) (L 6) (L 6) (L 1000).
Definition water_of (th : dec) : Material float :=
  set_thickness (set_density (Material_list (N:=NumF lm) [(L 1.00794, 1%Z, L 2); (L 15.9994, 8%Z, L 1)] (L 1e-5) (L 0.0) (L 0.0)) (L 1.0)) (L th).
Definition graphite_of (a rho th : dec) : Material float :=
  set_thickness (set_density (Material_list (N:=NumF lm) [(L a, 6%Z, L 1)] (L 1e-5) (L 0.0) (L 0.0)) (L rho)) (L th).

(** test_calculations.cpp:366-394 "result from stopped material", if the range is at most the 1000 g/cm2 of the layer *)
Theorem C64_stopped c w r w' : calculate (N:=NumF lm) junk ion (water_of 1000.0) c w = Ok (r, w') -> (r_range r <=? m_th (water_of 1000.0))%float = true ->
  r_Eout r = 0%float /\ r_Eloss r = 12000%float /\ r_sigma_E r = 0%float /\ r_sigma_a r = 0%float /\ r_dEdxo r = 0%float /\ r_tof r = 0%float /\
  forall mr w'', calculate_layers (N:=NumF lm) junk ion (Phasespace0 (N:=NumF lm)) [water_of 1000.0] c w = Ok (mr, w'') ->
    mr_results mr = [r] /\ r_Eout (mr_total mr) = 0%float /\ r_Eloss (mr_total mr) = 12000%float /\ r_sigma_E (mr_total mr) = 0%float /\
    r_sigma_a (mr_total mr) = 0%float /\ r_tof (mr_total mr) = 0%float.
Proof.
  intros H LE. destruct (stopped (N:=NumF lm) junk ion (water_of 1000.0) c w r w') as (E1 & E2 & E3 & E4 & E5 & E6); [vm_compute; reflexivity|vm_compute; reflexivity|vm_compute; reflexivity|exact H|exact LE|].
  replace (L 0.0) with 0%float in * by (vm_compute; reflexivity).
  replace (fmul (Num:=NumF lm) (fsub (Num:=NumF lm) (pT ion) 0%float) (pA ion)) with 12000%float in E2 by (vm_compute; reflexivity).
  repeat (split; [assumption|]). intros mr w'' HL. unfold calculate_layers in HL. cbn [layers_loop] in HL. rewrite at_same, H in HL. cbn [bind] in HL. injection HL as <- _. cbn [mr_results mr_total].
  split; [reflexivity|]. unfold total_finish, layer_update, total0. rewrite E1, E2, E3, E4, E6. cbn [r_sigma_x r_sigma_a r_sigma_E r_Eout r_Eloss r_tof].
  replace (fltb (Num:=NumF lm) (Ezero (N:=NumF lm)) 0%float) with false by (vm_compute; reflexivity). cbn [r_Eout r_Eloss r_sigma_E r_sigma_a r_tof].
  repeat split; vm_compute; reflexivity.
Qed.

(** test_calculations.cpp:412-426 "simplified calculation", the first half: the call with seven numbers is the
    call with the material of one element and the library-wide config *)
Theorem C64_simplified w : calculate_7 (N:=NumF lm) junk (L 12) 6 (L 1000) (L 12.011) (L 6) (L 1.0) (L 2.0) w =
  calculate (N:=NumF lm) junk ion (graphite_of 12.011 2.0 1.0) (w_default w) w.
Proof.
  unfold calculate_7. replace (cast (fto_int (Num:=NumF lm) (L 6))) with (@Ok Z 6%Z) by (vm_compute; reflexivity). cbn [bind]. f_equal; vm_compute; reflexivity.
Qed.
End Tests.
Print Assumptions C64_stopped.
Print Assumptions C64_simplified.

(** ** Concrete cases: the hypotheses about keys hold of the inputs of the tests, with a fresh library; in real
    arithmetic, carbon ions of 300 MeV/u in water return, twice the same, and stop in a thick enough layer *)
Example C64_calls_keys lm : let c := Config0 (N:=NumF lm) in let w := world0 (N:=NumF lm) in
  wf w /\ self_key (N:=NumF lm) (ion lm) (water_of lm 10.0) c /\ (forall e, self_key (N:=NumF lm) (at_T (ion lm) e) (graphite_of lm 12.011 2.0 1.0) c) /\
  mat_eqb (N:=NumF lm) (graphite_of lm 12.011 2.0 1.0) (water_of lm 10.0) = false /\ (forall e, In e (w_slots w) -> key_match (N:=NumF lm) (ion lm) (water_of lm 10.0) c e = false) /\
  too_low (N:=NumF lm) (pT (ion lm)) = false.
Proof.
  cbv zeta. split; [apply wf_world0|]. split; [split; [|split]; vm_compute; reflexivity|]. split; [intros e; split; [|split]; vm_compute; reflexivity|]. split; [vm_compute; reflexivity|].
  split; [|vm_compute; reflexivity]. intros e HE. apply repeat_spec in HE. subst e. vm_compute. reflexivity.
Qed.
Example C64_calls_case : exists th r w', calculate junk0 (carbon 300) (water th) conf world0 = Ok (r, w') /\ calculate junk0 (carbon 300) (water th) conf w' = Ok (r, w') /\
  r_Eout r = 0%R /\ dedx_from_range junk0 (carbon 300) (water th) conf w' = Ok (r_dEdxi r, w').
Proof.
  destruct (stopping_case 300) as (th & r & w' & P & H & E); [lra|apply top_above; lra|]. exists th, r, w'.
  assert (K : self_key (carbon 300) (water th) conf) by apply self_key_R.
  split; [exact H|]. split; [exact (C64_constant_results junk0 _ _ _ _ _ _ wf_world0 K H)|]. split; [exact E|].
  apply (C64_single_fields junk0 _ _ _ _ _ _ wf_world0 K) in H; [apply H|].
  unfold too_low. replace (fltb (pT (carbon 300)) Ezero) with false; [reflexivity|]. symmetry. rewrite Ezero_R. numR. cbn [carbon pT]. apply Rltb_false. lra.
Qed.
