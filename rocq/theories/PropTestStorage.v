(** * C64: the unit tests of tests/test_storage.cpp hold of the model in double precision, for every
      libm that is accurate to four units of the last place *)
From Flocq Require Import Core.
From Coq Require Import ZArith Reals List Bool Lra Lia Floats SpecFloat.
From Verif Require Import Num NumR NumF Structures EnergyTable Spline Calculations Storage CacheProofs BoundsAny Binary64 Binary64Lit Binary64Num
  PropGridFloat PropSplineFloat PropSafeFloat LibmZ TestCases.
Import ListNotations.
Local Open Scope R_scope.

(** ** The storage seen through the keys of its slots *)
Section Keys.
Variable lm : Libm.
Definition key : Type := Projectile float * Material float * Config float.
Definition entry (k : key) : DataPoint float := match k with (p, t, c) => mkDP p t c [] [] [] None None None end.
Definition key_of (d : DataPoint float) : key := (dp_p d, dp_m d, dp_c d).
Definition key0 : key := key_of (DataPoint0 (N:=NumF lm)).
Fixpoint put (l : list key) (i : nat) (k : key) : list key :=
  match l, i with
  | [], _ => []
  | _ :: l', O => k :: l'
  | x :: l', S i' => x :: put l' i' k
  end.
Definition kadd (k : key) (s : list key * nat) : list key * nat :=
  let (l, ix) := s in
  if existsb (fun x => dp_eqb (N:=NumF lm) (entry x) (entry k)) l then s
  else let i := if Nat.eqb ix (length l) then O else ix in (put l i k, S i).
Definition view (w : world float) : list key * nat := (map key_of (w_slots w), w_index w).

Lemma find_existsb (k : key) l : existsb (fun x => dp_eqb (N:=NumF lm) (entry x) (entry k)) (map key_of l) =
  match find_slot (fun e => dp_eqb (N:=NumF lm) e (entry k)) l with Some _ => true | None => false end.
Proof.
  induction l as [|d l IH]; [reflexivity|]. cbn [map existsb find_slot]. rewrite IH.
  change (dp_eqb (N:=NumF lm) (entry (key_of d)) (entry k)) with (dp_eqb (N:=NumF lm) d (entry k)). destruct (dp_eqb (N:=NumF lm) d (entry k)); [reflexivity|].
  cbn [orb]. destruct (find_slot _ l); reflexivity.
Qed.
Lemma put_map i d l : map key_of (set_slot l i d) = put (map key_of l) i (key_of d).
Proof. revert i. induction l as [|x l IH]; intros [|i]; try reflexivity. cbn [set_slot map put]. now rewrite IH. Qed.
Lemma length_set i (d : DataPoint float) l : length (set_slot l i d) = length l.
Proof. revert i. induction l as [|x l IH]; intros [|i]; try reflexivity. cbn [set_slot length]. now rewrite IH. Qed.
Lemma calc_key p t c d : calculate_DataPoint (N:=NumF lm) p t c = Ok d -> dp_p d = p /\ dp_m d = t /\ dp_c d = c.
Proof.
  unfold calculate_DataPoint. intros H. apply bind_ok in H. destruct H as (r & _ & H). apply bind_ok in H. destruct H as (a & _ & H). apply bind_ok in H. destruct H as (s & _ & H).
  inversion H. repeat split.
Qed.

(** one run of Data::Add per element of the list *)
Variable junk : nat -> float * float.
Definition add (k : key) (w : world float) : outcome (world float) :=
  match k with (p, t, c) => data_add (N:=NumF lm) junk (calculate_DataPoint (N:=NumF lm)) p t c w end.
Fixpoint run (l : list key) (w : world float) : outcome (world float) :=
  match l with [] => Ok w | k :: l' => w' <- add k w ;; run l' w' end.
Definition fine (k : key) : Prop := match k with (p, t, _) => charge_ok p /\ elements_ok t end.

Lemma add_view k w : accurate lm -> fine k -> wf w ->
  exists w', add k w = Ok w' /\ view w' = kadd k (view w) /\ wf w'.
Proof.
  destruct k as [[p t] c]. intros AC [CZ EM] W. cbn [add]. unfold data_add, view, kadd. cbv zeta.
  change (mkDP p t c [] [] [] None None None) with (entry (p, t, c)). rewrite find_existsb.
  destruct (find_slot _ (w_slots w)) as [j|] eqn:E.
  { exists w. split; [reflexivity|]. split; [reflexivity|exact W]. }
  destruct W as [LW IW]. rewrite map_length, LW.
  destruct (any_rcalc (N:=NumF lm) junk (w_junk w) p t c (two_not_zero lm) (tables_defined lm p t c AC CZ EM)) as (d & R & _).
  pose proof (rcalc_key (N:=NumF lm) junk (calculate_DataPoint (N:=NumF lm)) calc_key _ _ _ _ _ R) as (KP & KM & KC).
  unfold rcalc in R. apply bind_ok in R. destruct R as (d0 & R0 & R1). rewrite R0. cbn [bind]. rewrite R1. cbn [bind].
  set (i := if Nat.eqb (w_index w) 60 then O else w_index w). assert (I6 : (i < 60)%nat).
  { subst i. destruct (Nat.eqb_spec (w_index w) 60); lia. }
  destruct (Nat.ltb_spec i 60); [|lia]. eexists. split; [reflexivity|]. cbn [w_slots w_index]. split.
  - rewrite put_map. unfold key_of at 2. rewrite KP, KM, KC. reflexivity.
  - split; cbn [w_slots w_index]; [|lia]. now rewrite length_set, LW.
Qed.
Lemma run_view l w : accurate lm -> Forall fine l -> wf w ->
  exists w', run l w = Ok w' /\ view w' = fold_left (fun s k => kadd k s) l (view w) /\ wf w'.
Proof.
  intros AC H. revert w. induction H as [|k l F H IH]; intros w W; [exists w; repeat split; try reflexivity; apply W|].
  destruct (add_view k w AC F W) as (w1 & E1 & V1 & W1). destruct (IH w1 W1) as (w2 & E2 & V2 & W2).
  exists w2. cbn [run fold_left]. rewrite E1. cbn [bind]. split; [exact E2|]. rewrite V2, V1. split; [reflexivity|exact W2].
Qed.
Fixpoint indices (l : list key) (s : list key * nat) : list nat :=
  snd s :: match l with [] => [] | k :: l' => indices l' (kadd k s) end.
Lemma indices_nth l s i : (i <= length l)%nat -> nth_error (indices l s) i = Some (snd (fold_left (fun s k => kadd k s) (firstn i l) s)).
Proof.
  revert s i. induction l as [|k l IH]; intros s [|i] H; cbn [length] in H; try reflexivity; try lia. cbn [indices nth_error firstn fold_left]. apply IH. lia.
Qed.
End Keys.

(** ** The projectiles and materials of the tests *)
Section Objects.
Variable lm : Libm.
#[local] Instance NO : Num float := NumF lm.
Definition t_proj (a z q e : float) : Projectile float := Projectile_ a z q e.
Definition t_p : Projectile float := t_proj (lit 12) (lit 6) (lit 6) (lit 1000).
Definition t_water : Material float := Material_list [(lit 1, 1%Z, lit 2); (lit 16, 8%Z, lit 1)] (lit 1e-5) (lit 0.0) (lit 0.0).
Definition t_graphite : Material float := Material_list [(lit 12, 6%Z, lit 1)] (lit 1e-5) (lit 0.0) (lit 0.0).
Definition t_zeff (z : Z) : Config float := mkConfig z (c_corr Config0) (c_calc Config0) (c_low Config0) (c_scat Config0) (c_sfac Config0).
(** catima::Projectile p1{2.0*i,(double)i,(double)i,1000} *)
Definition t_many (i : nat) : Projectile float :=
  t_proj (lit 2.0 * ofZ (Z.of_nat i))%num (ofZ (Z.of_nat i)) (ofZ (Z.of_nat i)) (lit 1000).
End Objects.

Lemma charge_Z p z : pZ p = F_of_Z z -> (1 <= z < 109)%Z -> charge_ok p.
Proof.
  intros E B. destruct (F_of_Z_val z ltac:(lia)) as [F V]. split; rewrite E; [exact F|]. rewrite V. split; [apply IZR_le; lia|apply IZR_lt; lia].
Qed.
Lemma fine_p lm t c : elements_ok t -> fine (t_p lm, t, c).
Proof. intros H. split; [|exact H]. apply (charge_Z _ 6); [vm_compute; reflexivity|lia]. Qed.
Lemma fine_many lm i t c : (1 <= i < 109)%nat -> elements_ok t -> fine (t_many lm i, t, c).
Proof.
  intros B H. split; [|exact H]. apply (charge_Z _ (Z.of_nat i)); [|lia]. reflexivity.
Qed.
Lemma water_elements lm : elements_ok (t_water lm).
Proof. intros t H. cbn in H. repeat (destruct H as [H|H]; [subst t; cbn; lia|]). destruct H. Qed.
Lemma graphite_elements lm : elements_ok (t_graphite lm).
Proof. intros t H. cbn in H. repeat (destruct H as [H|H]; [subst t; cbn; lia|]). destruct H. Qed.

Lemma start_view lm w : view (data_reset (N:=NumF lm) w) = (repeat (key0 lm) 60, O) /\ wf (data_reset (N:=NumF lm) w).
Proof. split; [reflexivity|]. split; [reflexivity|]. cbn. lia. Qed.
Lemma view_slot w l ix i k : view w = (l, ix) -> nth_error l i = Some k ->
  exists d, slot w i = Ok d /\ dp_p d = fst (fst k) /\ dp_m d = snd (fst k).
Proof.
  intros V E. injection V as V1 V2. rewrite <- V1, nth_error_map in E. unfold slot. destruct (nth_error (w_slots w) i) as [d|]; [|discriminate E].
  injection E as <-. exists d. repeat split.
Qed.

(** test_storage.cpp:11-38: "datapoints equal operator" *)
Theorem C64_datapoints lm :
  let dp p m c := mkDP p m c [] [] [] None None None in
  let eqb := dp_eqb (N:=NumF lm) in
  let a := dp (t_p lm) (t_water lm) (t_zeff lm z_pierce_blann) in
  let b := dp (t_p lm) (t_water lm) (t_zeff lm z_pierce_blann) in
  let c := dp (t_p lm) (t_graphite lm) (t_zeff lm z_pierce_blann) in
  let e := dp (t_p lm) (t_water lm) (t_zeff lm z_winger) in
  passes (let d := c in [ eqb a b; negb (eqb a c); eqb d c; negb (eqb d b); negb (eqb e a) ]) /\
  passes (let d := a in [ negb (eqb d c); eqb d b ]).
Proof. vm_compute. split; repeat constructor. Qed.
Print Assumptions C64_datapoints.

(** test_storage.cpp:40-85: "storage add".  [holds_slot w i a n]: slot i holds a projectile of mass a and a
    material of n components. *)
Definition holds_slot (w : world float) (i : nat) (a : float) (n : Z) : Prop :=
  exists d, slot w i = Ok d /\ pA (dp_p d) = a /\ ncomponents (dp_m d) = n.
Lemma view_holds w l ix i k : view w = (l, ix) -> nth_error l i = Some k -> holds_slot w i (pA (fst (fst k))) (ncomponents (snd (fst k))).
Proof. intros V E. destruct (view_slot w l ix i k V E) as (d & S & P & M). exists d. rewrite P, M. repeat split. exact S. Qed.
Ltac norm V := match type of V with ?l = ?x => let y := eval vm_compute in x in
  let H := fresh in assert (H : x = y) by (vm_cast_no_check (eq_refl y)); apply (fun V' => eq_trans V' H) in V; clear H end.
Theorem C64_storage_add lm junk w : accurate lm ->
  let c0 := Config0 (N:=NumF lm) in
  let add m c := data_add (N:=NumF lm) junk (calculate_DataPoint (N:=NumF lm)) (t_p lm) m c in
  let water := t_water lm in
  let graphite := t_graphite lm in
  let w0 := data_reset (N:=NumF lm) w in
  w_index w0 = 0%nat /\
  exists w1, add water c0 w0 = Ok w1 /\ w_index w1 = 1%nat /\ holds_slot w1 0 12%float 2 /\
  exists w2, add water c0 w1 = Ok w2 /\ w_index w2 = 1%nat /\ holds_slot w2 1 0%float 0 /\
  exists w3, add graphite c0 w2 = Ok w3 /\ w_index w3 = 2%nat /\ holds_slot w3 1 12%float 1 /\
  exists w4, add graphite c0 w3 = Ok w4 /\ w_index w4 = 2%nat /\
  exists w5, add graphite (t_zeff lm z_global) w4 = Ok w5 /\ w_index w5 = 3%nat /\
  exists w6, add graphite c0 w5 = Ok w6 /\ w_index w6 = 3%nat /\
  exists w7, add graphite (t_zeff lm z_hubert) w6 = Ok w7 /\ w_index w7 = 4%nat.
Proof.
  intros AC c0 add' water graphite w0. destruct (start_view lm w) as [V0 W0]. fold w0 in V0, W0.
  pose proof (fine_p lm water c0 (water_elements lm)) as FW. pose proof (fun c => fine_p lm graphite c (graphite_elements lm)) as FG.
  split; [reflexivity|].
  destruct (add_view lm junk (t_p lm, water, c0) w0 AC FW W0) as (w1 & E1 & V1 & W1). rewrite V0 in V1. norm V1. exists w1. split; [exact E1|]. split; [exact (f_equal snd V1)|]. split; [exact (view_holds _ _ _ 0 _ V1 eq_refl)|].
  destruct (add_view lm junk (t_p lm, water, c0) w1 AC FW W1) as (w2 & E2 & V2 & W2). rewrite V1 in V2. norm V2. exists w2. split; [exact E2|]. split; [exact (f_equal snd V2)|]. split; [exact (view_holds _ _ _ 1 _ V2 eq_refl)|].
  destruct (add_view lm junk (t_p lm, graphite, c0) w2 AC (FG _) W2) as (w3 & E3 & V3 & W3). rewrite V2 in V3. norm V3. exists w3. split; [exact E3|]. split; [exact (f_equal snd V3)|]. split; [exact (view_holds _ _ _ 1 _ V3 eq_refl)|].
  destruct (add_view lm junk (t_p lm, graphite, c0) w3 AC (FG _) W3) as (w4 & E4 & V4 & W4). rewrite V3 in V4. norm V4. exists w4. split; [exact E4|]. split; [exact (f_equal snd V4)|].
  destruct (add_view lm junk (t_p lm, graphite, t_zeff lm z_global) w4 AC (FG _) W4) as (w5 & E5 & V5 & W5). rewrite V4 in V5. norm V5. exists w5. split; [exact E5|]. split; [exact (f_equal snd V5)|].
  destruct (add_view lm junk (t_p lm, graphite, c0) w5 AC (FG _) W5) as (w6 & E6 & V6 & W6). rewrite V5 in V6. norm V6. exists w6. split; [exact E6|]. split; [exact (f_equal snd V6)|].
  destruct (add_view lm junk (t_p lm, graphite, t_zeff lm z_hubert) w6 AC (FG _) W6) as (w7 & E7 & V7 & W7). rewrite V6 in V7. norm V7. exists w7. split; [exact E7|exact (f_equal snd V7)].
Qed.
Print Assumptions C64_storage_add.

(** test_storage.cpp:87-114: "test maximum storage" *)
Theorem C64_storage_maximum lm junk w : accurate lm ->
  let c0 := Config0 (N:=NumF lm) in
  let one m i := (t_many lm i, m, c0) in
  let first := map (one (t_graphite lm)) (seq 1 60) in
  let second := map (one (t_water lm)) (seq 1 58) in
  let w0 := data_reset (N:=NumF lm) w in
  (forall i, (i <= 60)%nat -> exists w', run lm junk (firstn i first) w0 = Ok w' /\ w_index w' = i /\ length (w_slots w') = 60%nat) /\
  (forall i, (1 <= i <= 58)%nat -> exists w', run lm junk (first ++ firstn i second) w0 = Ok w' /\ w_index w' = i /\ length (w_slots w') = 60%nat).
Proof.
  intros AC c0 one first second w0. destruct (start_view lm w) as [V0 W0]. fold w0 in V0, W0.
  assert (FI : Forall fine (first ++ second)).
  { apply Forall_app. split; apply Forall_forall; intros k H; apply in_map_iff in H; destruct H as (i & <- & H); apply in_seq in H;
      apply fine_many; try lia; [apply graphite_elements|apply water_elements]. }
  assert (IX : indices lm (first ++ second) (repeat (key0 lm) 60, O) = seq 0 61 ++ seq 1 58) by (vm_compute; reflexivity).
  assert (LF : length first = 60%nat) by reflexivity. assert (LS : length second = 58%nat) by reflexivity.
  assert (G : forall i, (i <= 118)%nat -> exists w', run lm junk (firstn i (first ++ second)) w0 = Ok w' /\ nth_error (seq 0 61 ++ seq 1 58) i = Some (w_index w') /\ length (w_slots w') = 60%nat).
  { intros i Hi. destruct (run_view lm junk (firstn i (first ++ second)) w0 AC) as (w' & R & V & [LW _]); [|exact W0|].
    - apply Forall_forall. intros k H. eapply Forall_forall; [exact FI|]. rewrite <- (firstn_skipn i (first ++ second)). apply in_or_app. now left.
    - exists w'. split; [exact R|]. split; [|exact LW]. rewrite <- IX, indices_nth by (rewrite app_length, LF, LS; lia). f_equal. change (w_index w') with (snd (view w')). rewrite V, V0. reflexivity. }
  clearbody first second. split; intros i Hi.
  - destruct (G i ltac:(lia)) as (w' & R & NX & LW). exists w'. rewrite firstn_app, LF in R. replace (i - 60)%nat with O in R by lia. cbn [firstn] in R. rewrite app_nil_r in R.
    split; [exact R|]. split; [|exact LW]. rewrite nth_error_app1 in NX by (rewrite seq_length; lia). rewrite (nth_error_nth' _ O) in NX by (rewrite seq_length; lia). rewrite seq_nth in NX by lia. injection NX as <-. reflexivity.
  - destruct (G (60 + i)%nat ltac:(lia)) as (w' & R & NX & LW). exists w'. rewrite firstn_app, LF in R. replace (60 + i - 60)%nat with i in R by lia. rewrite firstn_all2 in R by (rewrite LF; lia).
    split; [exact R|]. split; [|exact LW]. rewrite nth_error_app2 in NX by (rewrite seq_length; lia). rewrite seq_length in NX. rewrite (nth_error_nth' _ O) in NX by (rewrite seq_length; lia). rewrite seq_nth in NX by lia. injection NX as NX. lia.
Qed.
Print Assumptions C64_storage_maximum.

(** test_storage.cpp:138-158: "indexing", with the table EnergyTable *)
Lemma index_inside lm i v : accurate lm -> (i < 599)%nat -> fin v -> val (energyF lm i) <= val v < val (energyF lm (S i)) * (1 - 1 / 10 ^ 10) ->
  et_index (N:=NumF lm) (tableF lm) v = Ok (Z.of_nat i).
Proof.
  intros AC I FV [LV UV]. pose proof AC as [EX _]. destruct (C19_binary64 lm v AC FV) as (_ & _ & HI).
  assert (PE : forall k, (k < 600)%nat -> 0 < val (energyF lm k)). { intros k K. destruct (energyF_bounds lm k EX K) as (_ & P & B). nra. }
  assert (MONO : forall j k, (j <= k < 600)%nat -> val (energyF lm j) <= val (energyF lm k)).
  { intros j k H. destruct (Nat.eq_dec j k) as [->|N]; [lra|]. pose proof (increasing_F lm j k EX ltac:(lia)) as Q. replace 1.037 with (1037 / 1000) in Q by lra. pose proof (PE j ltac:(lia)). lra. }
  pose proof (MONO 0%nat i ltac:(lia)). pose proof (MONO (S i) 599%nat ltac:(lia)). pose proof (PE (S i) ltac:(lia)). pose proof (PE 599%nat ltac:(lia)).
  destruct HI as (j & E & J & L & U); [split; lra|]. rewrite E. do 2 f_equal.
  destruct (Nat.lt_trichotomy j i) as [C|[C|C]]; [|exact C|]; exfalso.
  - pose proof (MONO (S j) i ltac:(lia)). lra.
  - pose proof (MONO (S i) j ltac:(lia)). pose proof (PE j ltac:(lia)). lra.
Qed.
Theorem C64_indexing lm i : accurate lm -> (i < 599)%nat ->
  let et := energy_table (N:=NumF lm) in
  et_index (N:=NumF lm) et 0%float = Ok (-1)%Z /\
  exists v next, aget (et_values et) (Z.of_nat i) = Ok v /\ aget (et_values et) (Z.of_nat i + 1) = Ok next /\
    et_index (N:=NumF lm) et v = Ok (Z.of_nat i) /\ et_index (N:=NumF lm) et (v + lit (Num:=NumF lm) 0.5 * (next - v))%float = Ok (Z.of_nat i).
Proof.
  intros AC I et. pose proof AC as [EX _]. change et with (tableF lm).
  destruct (energyF_bounds lm 0 EX ltac:(lia)) as (F0 & P0 & B0). destruct (energyF_bounds lm i EX ltac:(lia)) as (FI & PI & BI). destruct (energyF_bounds lm (S i) EX ltac:(lia)) as (FS & PS & BS).
  pose proof (increasing_F lm i (S i) EX ltac:(lia)) as Q. replace 1.037 with (1037 / 1000) in Q by lra.
  pose proof (energy_low i ltac:(lia)) as LI. pose proof (energy_high (S i) ltac:(lia)) as HS. pose proof (energy_low 0 ltac:(lia)) as L0.
  split.
  - assert (A0 : app 0%float 0 0) by (closed_double 0%float; lra). destruct (C19_binary64 lm 0%float AC (app_fin _ _ _ A0)) as (H & _). apply H.
    pose proof (app_bounds _ _ _ A0). nra.
  - exists (energyF lm i), (energyF lm (S i)). rewrite (agetF lm (Z.of_nat i)), (agetF lm (Z.of_nat i + 1)) by lia. rewrite Nat2Z.id. replace (Z.to_nat (Z.of_nat i + 1)) with (S i) by lia.
    split; [reflexivity|]. split; [reflexivity|]. assert (E1 : 0 < val (energyF lm i)) by nra. assert (E2 : val (energyF lm (S i)) <= 10 ^ 10) by nra. assert (E3 : / 10 ^ 4 <= val (energyF lm i)) by nra.
    assert (HALF : app (lit (Num:=NumF lm) 0.5) (/ 2) 0) by (closed_double (lit (Num:=NumF lm) 0.5); lra).
    set (e := energyF lm i) in *. set (n := energyF lm (S i)) in *. set (x := val e) in *. set (y := val n) in *.
    assert (U0 : 0 < u < / (10 ^ 15)) by (unfold u; lra). assert (T0 : 0 < tiny <= / 10 ^ 30) by (pose proof tiny_le; pose proof tiny_pos; lra). assert (BG : 10 ^ 30 <= big) by apply big_ge.
    assert (XY : 1037 / 1000 * x <= y) by lra. clear Q BI BS LI HS PI PS B0 P0 L0.
    assert (D : app (n - e)%float (y - x) (y / 10 ^ 14)).
    { eapply app_weaken; [apply app_sub; [apply app_exact, FS|apply app_exact, FI|]; fold x y|fold x y]; rewrite (Rabs_pos_eq (y - x)) by lra; [lra|]. nra. }
    assert (M : app (lit (Num:=NumF lm) 0.5 * (n - e))%float (/ 2 * (y - x)) (y / 10 ^ 13)).
    { eapply app_weaken; [apply (app_mul _ _ _ _ _ _ HALF D)|]; rewrite (Rabs_pos_eq (y - x)), (Rabs_pos_eq (/ 2)), (Rabs_pos_eq (/ 2 * (y - x))) by lra; [lra|]. nra. }
    assert (S : app (e + lit (Num:=NumF lm) 0.5 * (n - e))%float (x + / 2 * (y - x)) (y / 10 ^ 12)).
    { eapply app_weaken; [apply (app_add _ _ _ _ _ _ (app_exact e FI) M)|]; fold x; rewrite (Rabs_pos_eq (x + / 2 * (y - x))) by lra; [lra|]. nra. }
    split; apply index_inside; try assumption; [fold e n x y; lra|exact (app_fin _ _ _ S)|]. pose proof (app_bounds _ _ _ S). fold e n x y. lra.
Qed.
Print Assumptions C64_indexing.

(** the hypothesis is met by the rounded real functions *)
Example C64_case junk w : exists w', data_add (N:=NumF rounded_libm) junk (calculate_DataPoint (N:=NumF rounded_libm))
  (t_p rounded_libm) (t_water rounded_libm) (Config0 (N:=NumF rounded_libm)) (data_reset (N:=NumF rounded_libm) w) = Ok w' /\ w_index w' = 1%nat.
Proof.
  destruct (C64_storage_add rounded_libm junk w rounded_accurate) as (_ & w1 & A & I & _). exists w1. split; [exact A|exact I].
Qed.
