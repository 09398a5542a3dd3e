(** * Properties C12, C15, C17 in binary64: energy balance, sums over a stack, survival *)
From Flocq Require Import Core.
From Coq Require Import ZArith Reals List Bool Lra Lia Floats SpecFloat.
From Verif Require Import Num NumR NumF Structures EnergyTable Spline Integrator Storage Catima LayerProofs PropLayers Binary64 Binary64Num PropGridFloat PropTableFloat.
Import ListNotations.
Local Open Scope R_scope.

Lemma lit_val lm d r : app (lit (Num:=NumF lm) d) r 0 -> fin (lit (Num:=NumF lm) d) /\ val (lit (Num:=NumF lm) d) = r.
Proof. intros [A B]. split; [exact A|]. apply Rabs_le_inv in B. lra. Qed.
Lemma lit0_val lm : fin (lit (Num:=NumF lm) 0.0) /\ val (lit (Num:=NumF lm) 0.0) = 0.
Proof. apply lit_val. cbn [lit NumF]; closed_double (F_lit 0.0); lra. Qed.
Lemma lit0'_val lm : fin (lit (Num:=NumF lm) 0) /\ val (lit (Num:=NumF lm) 0) = 0.
Proof. apply lit_val. cbn [lit NumF]; closed_double (F_lit 0); lra. Qed.
Lemma lit1_val lm : fin (lit (Num:=NumF lm) 1.0) /\ val (lit (Num:=NumF lm) 1.0) = 1.
Proof. apply lit_val. cbn [lit NumF]; closed_double (F_lit 1.0); lra. Qed.
Lemma Ezero_val lm : fin (Ezero (N:=NumF lm)) /\ 999 / 1000000 < val (Ezero (N:=NumF lm)) <= 1 / 1000 + / 10 ^ 18.
Proof. assert (A : app (Ezero (N:=NumF lm)) (1 / 1000) (/ 10 ^ 18)) by (unfold Ezero; cbn [lit NumF]; closed_double (F_lit 1e-3); lra). pose proof (app_bounds _ _ _ A). split; [exact (app_fin _ _ _ A)|lra]. Qed.
Lemma limit_val lm : fin (Ezero (N:=NumF lm) - numeric_epsilon (N:=NumF lm))%float /\ 999 / 1000000 < val (Ezero (N:=NumF lm) - numeric_epsilon (N:=NumF lm))%float <= 1 / 1000.
Proof.
  assert (A : app (Ezero (N:=NumF lm) - numeric_epsilon (N:=NumF lm))%float (1 / 1000 - / 10 ^ 14) (9 / 10 ^ 15)).
  { set (c := (Ezero (N:=NumF lm) - numeric_epsilon (N:=NumF lm))%float). closed_double c. lra. }
  pose proof (app_bounds _ _ _ A). split; [exact (app_fin _ _ _ A)|lra].
Qed.
Lemma too_low_F lm T : fin T -> (val T <= 999 / 1000000 -> too_low (N:=NumF lm) T = true) /\ (1 / 1000 <= val T -> too_low (N:=NumF lm) T = false).
Proof.
  intros F. unfold too_low. cbn [fltb fsub NumF]. destruct (Ezero_val lm) as [F0 B0]. destruct (limit_val lm) as [F1 B1]. destruct (ltb_val T _ F F0); destruct (ltb_val T _ F F1); split; intros; try reflexivity; cbn [andb]; try reflexivity; exfalso; lra.
Qed.

(** ** C12 *)
Lemma tiny_small : 10 ^ 25 * tiny <= / 10 ^ 290.
Proof.
  pose proof tiny_tiny as Q. pose proof tiny_pos. assert (P : 0 < 10 ^ 290) by (apply pow_lt; lra). apply Rmult_le_reg_r with (10 ^ 290); [exact P|]. rewrite Rinv_l by lra. replace (10 ^ 320) with (10 ^ 30 * 10 ^ 290) in Q by ring.
  assert (0 < tiny * 10 ^ 290) by (apply Rmult_lt_0_compat; lra). set (b := 10 ^ 290) in *. clearbody b. lra.
Qed.
Lemma loss_near A T E : fin A -> 0 <= val A <= 10 ^ 20 -> fin T -> fin E -> 0 <= val E <= val T -> val T <= 10 ^ 100 ->
  near ((T - E) * A)%float ((val T - val E) * val A) (5 * u) (10 ^ 21 * tiny) /\ 0 <= val ((T - E) * A)%float.
Proof.
  intros FA AB FT FE EB TB. pose proof tiny_pos as TP. assert (U0 : 0 < u < / 10 ^ 15) by (unfold u; lra). pose proof big_big as BG. pose proof tiny_le as TL.
  assert (T1 : 10 ^ 100 <= 10 ^ 200 /\ 10 ^ 100 <= 10 ^ 150) by (split; apply Rle_pow; try lra; lia).
  destruct (sub_val T E FT FE) as [FD VD]; [rewrite Rabs_pos_eq; lra|].
  assert (ND : near (T - E) (val T - val E) (2 * u) tiny). { split; [exact FD|]. rewrite VD. pose proof (rnd_near (val T - val E) (val T - val E) 0 0 ltac:(lra) ltac:(lra) ltac:(lra)) as Q. replace (val T - val E - (val T - val E)) with 0 in Q by ring. rewrite Rabs_R0 in Q. specialize (Q ltac:(lra)). lra. }
  pose proof (near_mul_r A (T - E)%float (val A) (val T - val E) 0 (2 * u) tiny (near_exact _ FA) ND ltac:(lra) ltac:(lra) ltac:(lra) ltac:(lra) ltac:(lra) ltac:(lra)) as N.
  assert (RP : 0 <= (val T - val E) * val A) by (apply Rmult_le_pos; lra). split.
  - eapply near_weaken; [exact N|exact RP|lra|]. assert (tiny * val A <= tiny * 10 ^ 20) by (apply Rmult_le_compat_l; lra). lra.
  - apply mul_nonneg; [exact FD|exact FA|exact (proj1 N)| |lra]. rewrite VD. apply rnd_ge_0. lra.
Qed.

(** The energy loss is the difference of the energies times A, right to 5 units of the last place, and never negative. *)
Theorem C12_binary64 lm (junk : nat -> float * float) p t c w r w' :
  calculate (N:=NumF lm) junk p t c w = Ok (r, w') -> fin (pT p) -> 1 / 1000 <= val (pT p) <= 10 ^ 100 -> fin (m_th t) -> val (m_th t) <> 0 ->
  fin (pA p) -> 0 <= val (pA p) <= 10 ^ 20 -> fin (r_Eout r) -> 0 <= val (r_Eout r) <= val (pT p) ->
  r_Ein r = pT p /\ fin (r_Eloss r) /\ 0 <= val (r_Eloss r) /\
  Rabs (val (r_Eloss r) - (val (r_Ein r) - val (r_Eout r)) * val (pA p)) <= 5 * u * ((val (r_Ein r) - val (r_Eout r)) * val (pA p)) + / 10 ^ 290.
Proof.
  intros H FT TB FH HN FA AB FE EB. apply calculate_inv in H. destruct (too_low_F lm (pT p) FT) as [_ TL]. specialize (TL ltac:(lra)).
  destruct H as [(L & _)|(_ & d & w1 & rg & dr & sv & _ & _ & _ & _ & [(B & _)|(_ & Eout & dEdxo & sE & sa & tof & w2 & vx & w3 & cov & w4 & sp & _ & _ & _ & _ & _ & ->)])]; [congruence| |].
  - exfalso. destruct (lit0'_val lm) as [F0 V0]. cbn [feqb NumF] in B. destruct (eqb_val (m_th t) _ FH F0) as [Q|Q]; [|discriminate]. rewrite V0 in Q. contradiction.
  - cbn [r_Ein r_Eout r_Eloss] in *. split; [reflexivity|]. destruct (loss_near (pA p) (pT p) Eout FA AB FT FE EB ltac:(lra)) as [[NF N] P]. split; [exact NF|]. split; [exact P|]. eapply Rle_trans; [exact N|]. pose proof tiny_small. pose proof tiny_pos. lra.
Qed.
Print Assumptions C12_binary64.

(** ** Sums of non-negative doubles *)
Definition Fsum (l : list float) (s : float) : float := fold_left (fun s x => (s + x)%float) l s.
Lemma sum_near k0 m0 : 0 <= k0 -> 0 <= m0 -> tiny <= m0 -> forall xs rs s S k m, Forall2 (fun x r => near x r k0 m0 /\ 0 <= r) xs rs -> near s S k m -> 0 <= S -> k0 <= k -> 
  k + 2 * u * INR (length xs) <= 1 -> S + Rsum rs <= 10 ^ 150 -> 0 <= m -> m + 4 * m0 * INR (length xs) <= 1 -> m * u <= m0 / 2 -> INR (length xs) * u <= 1 / 16 -> (m + 4 * m0 * INR (length xs)) * u <= m0 / 2 ->
  near (Fsum xs s) (S + Rsum rs) (k + 2 * u * INR (length xs)) (m + 4 * m0 * INR (length xs)).
Proof.
  intros K0 M0 TM. pose proof tiny_pos as TP. assert (U0 : 0 < u < / 10 ^ 15) by (unfold u; lra). induction xs as [|x xs IH]; intros rs s S k m F NS S0 KK KB SB MP MB MU NU MN; inversion F as [|? r ? rs' [NX RX] F']; subst.
  - cbn [Fsum fold_left Rsum fold_right length INR] in *. replace (S + 0) with S by ring. replace (k + 2 * u * 0) with k by ring. replace (m + 4 * m0 * 0) with m by ring. exact NS.
  - cbn [length] in *. rewrite S_INR in *. pose proof (pos_INR (length xs)) as NN. change (Rsum (r :: rs')) with (r + Rsum rs') in *. change (Fsum (x :: xs) s) with (Fsum xs (s + x)%float).
    assert (RR : 0 <= Rsum rs'). { clear - F'. induction F' as [|? ? ? ? [_ Q] _ IH]; [cbn; lra|]. change (Rsum (y :: l')) with (y + Rsum l'). lra. }
    assert (UN : 0 <= u * INR (length xs) /\ 0 <= m0 * INR (length xs)) by (split; apply Rmult_le_pos; lra).
    pose proof (near_add s x S r k m m0 NS ltac:(eapply near_weaken; [exact NX|exact RX|lra|lra]) S0 RX ltac:(lra) ltac:(lra) ltac:(lra) ltac:(lra)) as NA.
    assert (NA' : near (s + x) (S + r) (k + 2 * u) (m + 4 * m0)) by (eapply near_weaken; [exact NA|lra|lra|]; clear - MU TM U0 M0; nra).
    specialize (IH rs' (s + x)%float (S + r) (k + 2 * u) (m + 4 * m0) F' NA' ltac:(lra) ltac:(lra) ltac:(lra) ltac:(lra) ltac:(lra) ltac:(lra)).
    replace (S + (r + Rsum rs')) with (S + r + Rsum rs') by ring. replace (k + 2 * u * (INR (length xs) + 1)) with (k + 2 * u + 2 * u * INR (length xs)) by ring. replace (m + 4 * m0 * (INR (length xs) + 1)) with (m + 4 * m0 + 4 * m0 * INR (length xs)) by ring.
    assert (P1 : 0 <= m0 * INR (length xs) * u) by (apply Rmult_le_pos; lra). apply IH; [clear - MN P1; nra|lra|clear - MN; lra].
Qed.

(** ** C15 *)
(** every layer is entered with energy 0 or at least 1e-3 and left with at most the energy it was entered with *)
Fixpoint descending (e : float) (rs : list (Result float)) : Prop :=
  match rs with
  | [] => True
  | r :: rs' => (val e = 0 \/ 1 / 1000 <= val e) /\ fin (r_Eout r) /\ 0 <= val (r_Eout r) <= val e /\ descending (r_Eout r) rs'
  end.
Fixpoint losses (A e : float) (rs : list (Result float)) : list R :=
  match rs with [] => [] | r :: rs' => (val e - val (r_Eout r)) * val A :: losses A (r_Eout r) rs' end.

Lemma near_zero lm : near (lit (Num:=NumF lm) 0.0) 0 0 0.
Proof. destruct (lit0_val lm) as [F V]. split; [exact F|]. rewrite V. replace (0 - 0) with 0 by ring. rewrite Rabs_R0. lra. Qed.

Lemma stack_losses lm (junk : nat -> float * float) p c : fin (pA p) -> 0 <= val (pA p) <= 10 ^ 20 -> forall ms w e rs e' w', stack (N:=NumF lm) junk p c w e ms rs e' w' -> fin e -> 0 <= val e <= 10 ^ 100 -> descending e rs ->
  Forall2 (fun x r => near x r (5 * u) (10 ^ 21 * tiny) /\ 0 <= r) (map r_Eloss rs) (losses (pA p) e rs) /\ Rsum (losses (pA p) e rs) = (val e - val e') * val (pA p) /\ 0 <= val e' <= val e /\ fin e'.
Proof.
  intros FA AB. pose proof tiny_pos as TP. assert (U0 : 0 < u < / 10 ^ 15) by (unfold u; lra). induction ms as [|m ms IH]; intros w e rs e' w' S FE EB D; inversion S; subst.
  - cbn [map losses Rsum fold_right]. split; [constructor|]. split; [ring|]. split; [lra|exact FE].
  - match goal with HC : calculate _ _ _ _ _ = _, HS : stack _ _ _ _ _ ms _ _ _ |- _ => rename HC into HC'; rename HS into HS' end. cbn [descending] in D. destruct D as (DE & FO & OB & D').
    destruct (IH _ _ _ _ _ HS' FO ltac:(lra) D') as (F2 & RS & EB' & FE'). cbn [map losses]. change (Rsum (?a :: ?l)) with (a + Rsum l). rewrite RS. split; [|split; [ring|split; [lra|exact FE']]]. constructor; [|exact F2].
    split; [|apply Rmult_le_pos; lra]. apply calculate_inv in HC'. cbn [pT pA at_T] in HC'. destruct (too_low_F lm e FE) as [_ TL]. pose proof (near_zero lm) as NZ.
    assert (NZ' : near (lit (Num:=NumF lm) 0.0) 0 (5 * u) (10 ^ 21 * tiny)) by (eapply near_weaken; [exact NZ| | |]; lra).
    destruct HC' as [(L & -> & _)|(_ & d & wa & rg & dr & sv & _ & _ & _ & _ & [(B & _ & ->)|(_ & Eout & dEdxo & sE & sa & tof & w3 & vx & w4 & cov & w5 & sp & _ & _ & _ & _ & _ & ->)])].
    + destruct DE as [E0|E1]; [|rewrite (TL E1) in L; discriminate]. cbn [r_Eloss r_Eout Result0] in *. destruct (lit0_val lm) as [F0 V0]. rewrite V0, E0. replace ((0 - 0) * val (pA p)) with 0 by ring. exact NZ'.
    + cbn [r_Eloss r_Eout] in *. replace ((val e - val e) * val (pA p)) with 0 by ring. exact NZ'.
    + cbn [r_Eloss r_Eout] in *. exact (proj1 (loss_near (pA p) e Eout FA AB FE FO OB ltac:(lra))).
Qed.
Lemma totals_Eloss_F lm : forall ms rs t, length rs = length ms ->
  r_Eloss (totals (N:=NumF lm) ms rs t) = Fsum (map r_Eloss rs) (r_Eloss t) /\ r_tof (totals (N:=NumF lm) ms rs t) = Fsum (map r_tof rs) (r_tof t) /\
  r_Ein (totals (N:=NumF lm) ms rs t) = r_Ein t /\ r_Eout (totals (N:=NumF lm) ms rs t) = match rs with [] => r_Eout t | _ => r_Eout (last rs (Result0 (N:=NumF lm))) end.
Proof.
  unfold totals. induction ms as [|m ms IH]; intros [|r rs] t H; try discriminate; [auto|]. cbn [combine fold_left fst snd]. destruct (IH rs (layer_update (N:=NumF lm) m r t)) as (A & B & C & D); [now injection H|].
  rewrite A, B, C, D. cbn [map]. cbn [layer_update r_Eloss r_tof r_Ein r_Eout fadd NumF]. repeat split. destruct rs; reflexivity.
Qed.

(** The total energy loss of a stack is the energy difference times A up to 2 n + 5 units of the last place. *)
Theorem C15_binary64 lm (junk : nat -> float * float) p ps ms c w mr w' :
  calculate_layers (N:=NumF lm) junk p ps ms c w = Ok (mr, w') -> ms <> [] -> INR (length ms) * u <= 1 / 100 -> fin (pA p) -> 0 <= val (pA p) <= 10 ^ 20 -> fin (pT p) -> 0 <= val (pT p) <= 10 ^ 100 ->
  descending (pT p) (mr_results mr) ->
  let loss := val (pA p) * (val (r_Ein (mr_total mr)) - val (r_Eout (mr_total mr))) in
  fin (r_Eloss (mr_total mr)) /\ 0 <= loss /\ Rabs (val (r_Eloss (mr_total mr)) - loss) <= (2 * INR (length ms) + 5) * u * loss + INR (length ms) / 10 ^ 290.
Proof.
  intros H NE NB FA AB FT TB D. unfold calculate_layers in H. apply bind_ok in H. destruct H as ([[[rs e'] tot] w1] & H & E). injection E as <- <-. cbn [mr_results mr_total] in *. apply layers_stack in H. destruct H as (H & ->).
  pose proof (stack_length junk p c _ _ _ _ _ _ H) as LN. destruct (totals_Eloss_F lm ms rs (total0 (N:=NumF lm) p ps) LN) as (A & _ & C & G).
  assert (X : forall tot, r_Eloss (total_finish (N:=NumF lm) e' tot) = r_Eloss tot /\ r_Ein (total_finish (N:=NumF lm) e' tot) = r_Ein tot /\ r_Eout (total_finish (N:=NumF lm) e' tot) = r_Eout tot) by (intros; unfold total_finish; destruct (fltb _ _); auto).
  destruct (X (totals (N:=NumF lm) ms rs (total0 (N:=NumF lm) p ps))) as (X1 & X2 & X3). rewrite X1, X2, X3, A, C, G. clear X X1 X2 X3 A C G. cbn [total0 r_Eloss r_Ein r_Eout].
  destruct (stack_losses lm junk p c FA AB _ _ _ _ _ _ H FT TB D) as (F2 & RS & EB & FE).
  assert (EX : match rs with [] => lit (Num:=NumF lm) 0.0 | _ => r_Eout (last rs (Result0 (N:=NumF lm))) end = e').
  { rewrite (stack_exit junk p c _ _ _ _ _ _ H). destruct rs; [destruct ms; [contradiction|discriminate]|reflexivity]. }
  rewrite EX. cbv zeta. pose proof tiny_pos as TP. pose proof tiny_le as TL. assert (U0 : 0 < u < / 10 ^ 15) by (unfold u; lra). pose proof (pos_INR (length ms)) as NN. pose proof tiny_small as TS.
  assert (LP : 0 <= (val (pT p) - val e') * val (pA p)) by (apply Rmult_le_pos; lra). rewrite (Rmult_comm (val (pA p))).
  assert (LB : (val (pT p) - val e') * val (pA p) <= 10 ^ 150). { apply Rle_trans with (10 ^ 100 * 10 ^ 20); [apply Rmult_le_compat; lra|]. rewrite <- pow_add. apply Rle_pow; [lra|lia]. }
  assert (N100 : INR (length ms) <= 10 ^ 15) by (assert (INR (length ms) * u <= 1 / 100) by lra; unfold u in *; lra).
  assert (TI : tiny * 10 ^ 21 <= / 10 ^ 100). { pose proof tiny_tiny. assert (P : 0 < 10 ^ 100) by (apply pow_lt; lra). apply Rmult_le_reg_r with (10 ^ 100); [exact P|]. rewrite Rinv_l by lra. replace (tiny * 10 ^ 21 * 10 ^ 100) with (tiny * 10 ^ 121) by ring. apply Rle_trans with (tiny * 10 ^ 320); [|lra]. apply Rmult_le_compat_l; [lra|]. apply Rle_pow; [lra|lia]. }
  assert (TI2 : / 10 ^ 100 <= / 10 ^ 20) by (apply Rinv_le_contravar; [lra|apply Rle_pow; [lra|lia]]).
  assert (MN : 0 <= 10 ^ 21 * tiny * INR (length ms) <= / 10 ^ 5). { split; [apply Rmult_le_pos; lra|]. apply Rle_trans with (/ 10 ^ 20 * 10 ^ 15); [apply Rmult_le_compat; lra|lra]. }
  pose proof (sum_near (5 * u) (10 ^ 21 * tiny) ltac:(lra) ltac:(lra) ltac:(lra) (map r_Eloss rs) (losses (pA p) (pT p) rs) (lit (Num:=NumF lm) 0.0) 0 (5 * u) 0 F2 ltac:(eapply near_weaken; [exact (near_zero lm)| | |]; lra)) as Q.
  rewrite map_length, LN in Q. specialize (Q ltac:(lra) ltac:(lra) ltac:(lra) ltac:(rewrite RS; lra) ltac:(lra) ltac:(lra) ltac:(lra) ltac:(lra)).
  assert (MU : (0 + 4 * (10 ^ 21 * tiny) * INR (length ms)) * u <= 10 ^ 21 * tiny / 2). { replace ((0 + 4 * (10 ^ 21 * tiny) * INR (length ms)) * u) with (4 * (10 ^ 21 * tiny) * (INR (length ms) * u)) by ring. assert (4 * (10 ^ 21 * tiny) * (INR (length ms) * u) <= 4 * (10 ^ 21 * tiny) * (1 / 100)) by (apply Rmult_le_compat_l; lra). lra. }
  destruct (Q MU) as [FQ NQ]. split; [exact FQ|]. split; [exact LP|]. rewrite Rplus_0_l, RS in NQ. eapply Rle_trans; [exact NQ|]. 
  apply Rplus_le_compat; [right; ring|]. unfold Rdiv. rewrite Rplus_0_l. rewrite (Rmult_comm (INR (length ms))). apply Rmult_le_compat_r; [exact NN|]. lra.
Qed.
Print Assumptions C15_binary64.

(** ** C17 *)
Definition prob (x : float) : Prop := fin x /\ 0 <= val x <= 1.
Definition Rprodv (l : list float) : R := fold_right Rmult 1 (map val l).
Lemma totals_sp_F lm : forall ms rs t, length rs = length ms -> Forall prob (map r_sp rs) -> r_sp (totals (N:=NumF lm) ms rs t) = fold_left PrimFloat.mul (map r_sp rs) (r_sp t).
Proof.
  unfold totals. induction ms as [|m ms IH]; intros [|r rs] t H P; try discriminate; [reflexivity|]. cbn [combine fold_left fst snd map] in *. inversion P as [|? ? [F B] P']; subst. rewrite IH; [|now injection H|exact P'].
  f_equal. cbn [layer_update r_sp fmul fleb NumF]. destruct (lit0_val lm) as [F0 V0]. destruct (leb_val _ _ F0 F) as [Q|Q]; [reflexivity|]. exfalso. lra.
Qed.
Lemma prod_near : forall l s S e, Forall prob l -> prob s -> 0 <= S <= 1 -> Rabs (val s - S) <= e -> 
  prob (fold_left PrimFloat.mul l s) /\ Rabs (val (fold_left PrimFloat.mul l s) - S * Rprodv l) <= e + 2 * u * INR (length l) /\ val (fold_left PrimFloat.mul l s) <= val s.
Proof.
  assert (U0 : 0 < u < / 10 ^ 15) by (unfold u; lra). pose proof tiny_le as TL. pose proof big_ge as BG. assert (TU : tiny <= u) by (unfold u in *; lra).
  induction l as [|x l IH]; intros s S e P PS SB H. { cbn [fold_left Rprodv map fold_right length INR]. split; [exact PS|]. split; [|lra]. replace (S * 1) with S by ring. lra. }
  inversion P as [|? ? [FX XB] P']; subst. destruct PS as [FS SB']. cbn [fold_left]. assert (XS : 0 <= val s * val x <= val s) by nra.
  destruct (mul_val s x FS FX) as [FM VM]; [rewrite Rabs_pos_eq; lra|].
  assert (MB : 0 <= val (s * x) <= val s) by (rewrite VM; split; [apply rnd_ge_0; lra|rewrite <- (rnd_val s) at 2; apply rnd_le; lra]).
  destruct (IH (s * x)%float (S * val x) (e + 2 * u) P') as (A & B & C).
  - split; [exact FM|lra].
  - nra.
  - rewrite VM. replace (rnd (val s * val x) - S * val x) with ((rnd (val s * val x) - val s * val x) + (val s - S) * val x) by ring. eapply Rle_trans; [apply Rabs_triang|]. rewrite Rabs_mult, (Rabs_pos_eq (val x)) by lra.
    pose proof (rnd_error (val s * val x)) as Q. rewrite (Rabs_pos_eq (val s * val x)) in Q by lra. pose proof (Rabs_pos (val s - S)). assert (u * (val s * val x) <= u) by nra. assert (Rabs (val s - S) * val x <= Rabs (val s - S)) by nra. lra.
  - split; [exact A|]. split; [|lra]. change (Rprodv (x :: l)) with (val x * Rprodv l). cbn [length]. rewrite S_INR. rewrite <- Rmult_assoc. lra.
Qed.

(** When every layer reports a probability, so does the stack; it is no larger than that of any prefix and is the product up to 2 units of the last place per layer. *)
Theorem C17_binary64 lm (junk : nat -> float * float) p ps ms c w mr w' :
  calculate_layers (N:=NumF lm) junk p ps ms c w = Ok (mr, w') -> Forall (fun r => prob (r_sp r)) (mr_results mr) ->
  prob (r_sp (mr_total mr)) /\ Rabs (val (r_sp (mr_total mr)) - Rprodv (map r_sp (mr_results mr))) <= 2 * u * INR (length ms).
Proof.
  intros H P. unfold calculate_layers in H. apply bind_ok in H. destruct H as ([[[rs e'] tot] w1] & H & E). injection E as <- <-. cbn [mr_results mr_total] in *. apply layers_stack in H. destruct H as (H & ->).
  pose proof (stack_length junk p c _ _ _ _ _ _ H) as LN. assert (X : forall tot, r_sp (total_finish (N:=NumF lm) e' tot) = r_sp tot) by (intros; unfold total_finish; destruct (fltb _ _); auto). rewrite X.
  rewrite totals_sp_F; [|exact LN|]. 2: { apply Forall_forall. intros x Hx. apply in_map_iff in Hx. destruct Hx as (r & <- & Hr). exact (proj1 (Forall_forall _ _) P _ Hr). }
  cbn [total0 r_sp]. destruct (lit1_val lm) as [F1 V1]. destruct (prod_near (map r_sp rs) (lit (Num:=NumF lm) 1.0) 1 0) as (A & B & _).
  - apply Forall_forall. intros x Hx. apply in_map_iff in Hx. destruct Hx as (r & <- & Hr). exact (proj1 (Forall_forall _ _) P _ Hr).
  - split; [exact F1|rewrite V1; lra].
  - lra.
  - rewrite V1. replace (1 - 1) with 0 by ring. rewrite Rabs_R0. lra.
  - rewrite map_length, LN, Rmult_1_l in B. split; [exact A|lra].
Qed.
Print Assumptions C17_binary64.

(** ** A carbon ion of 100 MeV/u that passes a layer of no thickness and stops in the next: the tables in memory are constants (range 1 g/cm2), and libm a rough one that can be computed with *)
Definition rough_libm : Libm :=
  {| lm_exp := fun x => (x + 10)%float; lm_log := fun x => x; lm_log1p := fun x => x; lm_log10 := fun x => x; lm_pow := fun x _ => x |}.
Definition const_spline (y : float) : spline float := mkSpline (tableF rough_libm) (repeat y 600) (repeat 0%float 600) (repeat 0%float 600) (repeat 0.0078125%float 600) 0.0078125%float 0.0078125%float.
Definition carbonF : Projectile float := mkProj 12%float 6%float 6%float 100%float.
Definition waterF (th : float) : Material float := mkMat 1%float th 18%float 0%float [mkTarget 1%float 1 2%float; mkTarget 16%float 8 1%float].
Definition worldF : world float :=
  mkW [mkDP carbonF (waterF 1) (Config0 (N:=NumF rough_libm)) [] [] [] (Some (const_spline 1)) (Some (const_spline 0)) (Some (const_spline 0))] 0 (Config0 (N:=NumF rough_libm)) 0.
Definition runF : outcome (MultiResult float * world float) :=
  calculate_layers (N:=NumF rough_libm) (fun _ => (0%float, 0%float)) carbonF (Phasespace0 (N:=NumF rough_libm)) [waterF 0; waterF 2; waterF 1] (Config0 (N:=NumF rough_libm)) worldF.
Lemma runF_value : match runF with Ok (mr, _) => Some (map r_Eout (mr_results mr), map r_sp (mr_results mr), r_Ein (mr_total mr), r_Eout (mr_total mr), r_Eloss (mr_total mr)) | UB _ => None end =
  Some ([100; 0; 0]%float, [1; -1; 1]%float, 100%float, 0%float, 1200%float).
Proof. lazy. reflexivity. Qed.
Lemma val_by x r : app x r 0 -> fin x /\ val x = r.
Proof. intros [A B]. split; [exact A|]. apply Rabs_le_inv in B. lra. Qed.
Example C15_binary64_case : exists mr w', runF = Ok (mr, w') /\ descending 100%float (mr_results mr) /\ val (r_Eloss (mr_total mr)) = 1200 /\
  Rabs (val (r_Eloss (mr_total mr)) - 12 * (100 - 0)) <= (2 * INR 3 + 5) * u * (12 * (100 - 0)) + INR 3 / 10 ^ 290.
Proof.
  pose proof runF_value as V. destruct runF as [[mr w']|] eqn:E; [|discriminate]. 
  assert (V100 : fin 100%float /\ val 100%float = 100) by (apply val_by; closed_double 100%float; lra). assert (V0 : fin 0%float /\ val 0%float = 0) by (apply val_by; closed_double 0%float; lra).
  assert (V12 : fin 12%float /\ val 12%float = 12) by (apply val_by; closed_double 12%float; lra). assert (V1200 : fin 1200%float /\ val 1200%float = 1200) by (apply val_by; closed_double 1200%float; lra).
  injection V as EO SP EI EU EL. destruct V100 as [F100 V100]. destruct V0 as [F0 V0]. destruct V12 as [F12 V12]. exists mr, w'. split; [reflexivity|].
  assert (D : descending 100%float (mr_results mr)).
  { clear - EO V100 V0 F100 F0. destruct (mr_results mr) as [|r1 [|r2 [|r3 [|? ?]]]]; try discriminate EO. cbn [map] in EO. injection EO as E1 E2 E3. cbn [descending]. rewrite E1, E2, E3, V100, V0. repeat (split; [first [assumption|lra]|]). exact I. }
  split; [exact D|]. split; [rewrite EL; apply V1200|]. 
  unfold runF in E. assert (B100 : 0 <= val (pT carbonF) <= 10 ^ 100). { cbn [pT carbonF]. rewrite V100. split; [lra|]. apply Rle_trans with (10 ^ 2); [lra|]. apply Rle_pow; [lra|lia]. }
  assert (N3 : INR (length [waterF 0; waterF 2; waterF 1]) * u <= 1 / 100) by (cbn [length INR]; unfold u; lra). assert (B12 : 0 <= val (pA carbonF) <= 10 ^ 20) by (cbn [pA carbonF]; rewrite V12; lra).
  assert (NN : [waterF 0; waterF 2; waterF 1] <> []) by (intros X; inversion X).
  destruct (C15_binary64 rough_libm _ carbonF _ _ _ _ _ _ E NN N3 F12 B12 F100 B100 D) as (_ & _ & Q).
  - rewrite EI, EU in Q. cbn [pA carbonF] in Q. rewrite V100, V0, V12 in Q. exact Q.
Qed.
(** survival 0.5 and 0.25 in two layers: 0.125 *)
Example C17_binary64_case : prob (fold_left PrimFloat.mul [0.5; 0.25]%float 1%float) /\ val (fold_left PrimFloat.mul [0.5; 0.25]%float 1%float) = 1 / 8.
Proof. assert (A : fin (fold_left PrimFloat.mul [0.5; 0.25]%float 1%float) /\ val (fold_left PrimFloat.mul [0.5; 0.25]%float 1%float) = 1 / 8) by (apply val_by; closed_double (fold_left PrimFloat.mul [0.5; 0.25]%float 1%float); lra). unfold prob. destruct A as [A B]. rewrite B. split; [|reflexivity]. split; [exact A|lra]. Qed.
(** the second layer by itself *)
Definition layerF : outcome (Result float * world float) := calculate (N:=NumF rough_libm) (fun _ => (0%float, 0%float)) carbonF (waterF 2) (Config0 (N:=NumF rough_libm)) worldF.
Lemma layerF_value : match layerF with Ok (r, _) => Some (r_Eout r, r_Eloss r) | UB _ => None end = Some (0%float, 1200%float).
Proof. lazy. reflexivity. Qed.
Example C12_binary64_case : exists r w', layerF = Ok (r, w') /\ val (r_Eloss r) = 1200 /\ r_Ein r = 100%float /\ Rabs (val (r_Eloss r) - (100 - 0) * 12) <= 5 * u * ((100 - 0) * 12) + / 10 ^ 290.
Proof.
  pose proof layerF_value as V. destruct layerF as [[r w']|] eqn:E; [|discriminate]. injection V as EO EL. exists r, w'. split; [reflexivity|].
  assert (V100 : fin 100%float /\ val 100%float = 100) by (apply val_by; closed_double 100%float; lra). assert (V0 : fin 0%float /\ val 0%float = 0) by (apply val_by; closed_double 0%float; lra). assert (V2 : fin 2%float /\ val 2%float = 2) by (apply val_by; closed_double 2%float; lra).
  assert (V12 : fin 12%float /\ val 12%float = 12) by (apply val_by; closed_double 12%float; lra). assert (V1200 : fin 1200%float /\ val 1200%float = 1200) by (apply val_by; closed_double 1200%float; lra).
  destruct V100 as [F100 V100]. destruct V0 as [F0 V0]. destruct V12 as [F12 V12]. destruct V2 as [F2 V2]. split; [rewrite EL; apply V1200|].
  assert (B100 : 1 / 1000 <= val (pT carbonF) <= 10 ^ 100). { cbn [pT carbonF]. rewrite V100. split; [lra|]. apply Rle_trans with (10 ^ 2); [lra|]. apply Rle_pow; [lra|lia]. }
  assert (B12 : 0 <= val (pA carbonF) <= 10 ^ 20) by (cbn [pA carbonF]; rewrite V12; lra). assert (B2 : val (m_th (waterF 2)) <> 0) by (cbn [m_th waterF]; rewrite V2; lra).
  assert (FO : fin (r_Eout r)) by (rewrite EO; exact F0). assert (BO : 0 <= val (r_Eout r) <= val (pT carbonF)) by (rewrite EO, V0; lra).
  unfold layerF in E. destruct (C12_binary64 rough_libm _ carbonF _ _ _ _ _ E F100 B100 F2 B2 F12 B12 FO BO) as (EI & _ & _ & Q). split; [exact EI|]. rewrite EI, EO in Q. cbn [pT pA carbonF] in Q. rewrite V100, V0, V12 in Q. exact Q.
Qed.
