(** * Properties C26, C28 in binary64: the quadrature and the running sums with rounding errors *)
From Flocq Require Import Core.
From Coq Require Import ZArith Reals List Bool Lra Lia Floats SpecFloat.
From Verif Require Import Num NumR NumF Structures EnergyTable Integrator Storage DataQuadrature GridProofs PropTables Binary64 Binary64Num PropGridFloat PropSplineFloat.
Import ListNotations.
Local Open Scope R_scope.

Lemma rnd_pos a : / 10 ^ 30 <= a -> a * (1 - u) <= rnd a <= a * (1 + u).
Proof.
  intros H. assert (L : / 10 ^ 30 > 0) by (apply Rinv_0_lt_compat; lra). assert (AP : Rabs a = a) by (apply Rabs_pos_eq; lra).
  pose proof (rnd_relative a) as Q. rewrite AP in Q. pose proof small_le. specialize (Q ltac:(lra)). apply Rabs_le_inv in Q. lra.
Qed.
Lemma rnd_nonneg a : 0 <= a -> a * (1 - u) - tiny <= rnd a <= a * (1 + u) + tiny.
Proof. intros H. pose proof (rnd_error a) as Q. rewrite (Rabs_pos_eq a) in Q by exact H. apply Rabs_le_inv in Q. lra. Qed.
Lemma big_big : 10 ^ 200 <= big.
Proof.
  unfold big. replace (10 ^ 200) with (IZR (10 ^ 200)) by (rewrite pow_IZR; reflexivity). rewrite <- (IZR_Zpower radix2 1023) by lia. apply IZR_le. vm_compute. discriminate.
Qed.
Lemma tiny_tiny : tiny * 10 ^ 320 <= 1.
Proof.
  unfold tiny. change (-1075)%Z with (- (1075))%Z. rewrite (bpow_opp radix2 1075). apply Rmult_le_reg_l with (bpow radix2 1075); [apply bpow_gt_0|]. rewrite <- Rmult_assoc, Rinv_r, Rmult_1_l, Rmult_1_r by (apply Rgt_not_eq, bpow_gt_0).
  replace (10 ^ 320) with (IZR (10 ^ 320)) by (rewrite pow_IZR; reflexivity). rewrite <- (IZR_Zpower radix2 1075) by lia. apply IZR_le. vm_compute. discriminate.
Qed.

Lemma half_app lm : app (lit (Num:=NumF lm) 0.5) (1 / 2) 0.
Proof. cbn [lit NumF]. closed_double (F_lit 0.5). lra. Qed.

(** ** The abscissas and weights *)
Definition node_ok (n : float * float) : Prop := fin (fst n) /\ fin (snd n) /\ 1 / 10 <= val (fst n) <= 97 / 100 /\ 1 / 10 <= val (snd n) <= 4 / 10.
Lemma nodes_ok lm : Forall node_ok (GL8_nodes (N:=NumF lm)).
Proof.
  unfold GL8_nodes, gl_nodes. cbn [map combine lit NumF GL8_x GL8_w].
  assert (H : forall c r e, app c r e -> 1 / 10 <= r - e -> r + e <= 97 / 100 -> fin c /\ 1 / 10 <= val c <= 97 / 100) by (intros c r e A ? ?; pose proof (app_bounds _ _ _ A); split; [exact (app_fin _ _ _ A)|lra]).
  repeat constructor; cbn [fst snd];
   match goal with
   | |- fin ?c => let s := eval vm_compute in (Prim2SF c) in apply fin_SF; replace (Prim2SF c) with s by (vm_compute; reflexivity); exact I
   | |- context [val ?c] => let s := eval vm_compute in (Prim2SF c) in rewrite val_SF; replace (Prim2SF c) with s by (vm_compute; reflexivity); cbn [SFR Z.leb Z.compare Z.opp Z.pow Z.pow_pos Pos.iter Z.mul Pos.mul]; lra
   end.
Qed.

(** ** The points at which the integrand is evaluated *)
Definition cell (lo hi : float) : Prop := fin lo /\ fin hi /\ 1 / 3000 <= val lo /\ val lo * (1037 / 1000) < val hi /\ val hi <= 2 * 10 ^ 9.
Definition halfwidth (lm : Libm) (lo hi : float) : float := (lit (Num:=NumF lm) 0.5 * (hi - lo))%float.
Definition centre (lm : Libm) (lo hi : float) : float := (lit (Num:=NumF lm) 0.5 * (hi + lo))%float.

Lemma pq lm lo hi : cell lo hi -> let P := (val hi - val lo) / 2 in let Q := (val hi + val lo) / 2 in
  fin (halfwidth lm lo hi) /\ P * (1 - 3 * u) <= val (halfwidth lm lo hi) <= P * (1 + 3 * u) /\
  fin (centre lm lo hi) /\ Q * (1 - 3 * u) <= val (centre lm lo hi) <= Q * (1 + 3 * u).
Proof.
  intros (FL & FH & L & D & U) P Q. pose proof big_ge as BG. destruct (half_app lm) as [FF HF]. assert (VH : val (lit (Num:=NumF lm) 0.5) = 1 / 2) by (apply Rabs_le_inv in HF; lra).
  destruct (sub_val hi lo FH FL) as [F1 V1]; [rewrite Rabs_pos_eq; lra|]. destruct (add_val hi lo FH FL) as [F2 V2]; [rewrite Rabs_pos_eq; lra|].
  pose proof (rnd_pos (val hi - val lo) ltac:(lra)) as R1. pose proof (rnd_pos (val hi + val lo) ltac:(lra)) as R2. rewrite <- V1 in R1. rewrite <- V2 in R2.
  assert (U0 : 0 < u < / 10 ^ 15) by (unfold u; lra).
  assert (B1 : / 10 ^ 8 <= val (hi - lo) <= 10 ^ 11) by (clear - R1 U0 L D U; nra). assert (B2 : / 10 ^ 8 <= val (hi + lo) <= 10 ^ 11) by (clear - R2 U0 L D U; nra).
  unfold halfwidth, centre. destruct (mul_val _ _ FF F1) as [F3 V3]; [rewrite VH, Rabs_pos_eq; lra|]. destruct (mul_val _ _ FF F2) as [F4 V4]; [rewrite VH, Rabs_pos_eq; lra|].
  pose proof (rnd_pos _ : / 10 ^ 30 <= val (lit (Num:=NumF lm) 0.5) * val (hi - lo) -> _) as R3. pose proof (rnd_pos _ : / 10 ^ 30 <= val (lit (Num:=NumF lm) 0.5) * val (hi + lo) -> _) as R4.
  specialize (R3 ltac:(rewrite VH; lra)). specialize (R4 ltac:(rewrite VH; lra)). rewrite <- V3 in R3. rewrite <- V4 in R4. rewrite VH in R3, R4.
  assert (P0 : 0 < P) by (unfold P; lra). assert (Q0 : 0 < Q) by (unfold Q; lra). replace (val hi - val lo) with (2 * P) in R1 by (unfold P; field). replace (val hi + val lo) with (2 * Q) in R2 by (unfold Q; field).
  clearbody P Q. split; [exact F3|]. split; [|split; [exact F4|]]; clear - R1 R2 R3 R4 P0 Q0 U0; nra.
Qed.

Lemma node_accuracy lm lo hi x w : cell lo hi -> node_ok (x, w) ->
  let p := halfwidth lm lo hi in let q := centre lm lo hi in
  ((fin (p * x + q) /\ val lo <= val (p * x + q) <= val hi) /\ (fin (- p * x + q) /\ val lo <= val (- p * x + q) <= val hi)) /\
  Rabs (val (p * x + q) - ((val hi + val lo) / 2 + (val hi - val lo) / 2 * val x)) <= 10 * u * val hi /\ Rabs (val (- p * x + q) - ((val hi + val lo) / 2 - (val hi - val lo) / 2 * val x)) <= 10 * u * val hi.
Proof.
  intros C (FX & _ & BX & _) p q. cbn [fst snd] in *. destruct (pq lm lo hi C) as (FP & VP & FQ & VQ). fold p in FP, VP. fold q in FQ, VQ. destruct C as (FL & FH & L & D & U).
  pose proof big_ge as BG. assert (U0 : 0 < u < / 10 ^ 15) by (unfold u; lra). set (P := (val hi - val lo) / 2) in *. set (Q := (val hi + val lo) / 2) in *.
  assert (BP : / 10 ^ 6 <= P <= 10 ^ 10) by (unfold P; lra). assert (BQ : / 10 ^ 4 <= Q <= 10 ^ 10) by (unfold Q; lra).
  assert (B1 : / 10 ^ 7 <= val p <= 10 ^ 11) by (clear - VP U0 BP; nra). assert (B2 : / 10 ^ 5 <= val q <= 10 ^ 11) by (clear - VQ U0 BQ; nra).
  destruct (opp_val p FP) as [FO VO].
  assert (PX : / 10 ^ 9 <= val p * val x <= 10 ^ 11) by (clear - B1 BX; nra).
  destruct (mul_val p x FP FX) as [F1 V1]; [rewrite Rabs_pos_eq; lra|]. destruct (mul_val (- p) x FO FX) as [F2 V2]; [rewrite VO, Ropp_mult_distr_l_reverse, Rabs_Ropp, Rabs_pos_eq; lra|].
  pose proof (rnd_pos (val p * val x) ltac:(lra)) as R1. rewrite VO, Ropp_mult_distr_l_reverse, rnd_opp, <- V1 in V2. rewrite <- V1 in R1.
  remember (val (p * x)) as m eqn:Em. assert (BM : P * val x * (1 - 5 * u) <= m <= P * val x * (1 + 5 * u)).
  { assert (PX0 : 0 < P * val x) by (apply Rmult_lt_0_compat; lra). assert (val p * val x <= P * val x * (1 + 3 * u)) by (replace (P * val x * (1 + 3 * u)) with (P * (1 + 3 * u) * val x) by ring; apply Rmult_le_compat_r; lra).
    assert (P * val x * (1 - 3 * u) <= val p * val x) by (replace (P * val x * (1 - 3 * u)) with (P * (1 - 3 * u) * val x) by ring; apply Rmult_le_compat_r; lra).
    set (y := P * val x) in *. set (z := val p * val x) in *. clearbody y z. clear - R1 PX0 H H0 U0. nra. }
  assert (HB : hi = hi) by reflexivity. assert (BX' : P * val x <= P * (97 / 100)) by (apply Rmult_le_compat_l; lra). assert (BX0 : 0 < P * val x) by (apply Rmult_lt_0_compat; lra).
  assert (PQ : Q - P = val lo /\ Q + P = val hi) by (unfold P, Q; lra). assert (PQ2 : Q <= 56 * P) by (unfold P, Q; lra).
  set (y := P * val x) in *. clearbody y P Q. destruct PQ as [PQ1 PQ3].
  assert (MB : 0 < m <= P * (98 / 100)) by (clear - BM BX' BX0 U0 BP; nra).
  assert (QM : / 10 ^ 30 <= - m + val q) by (clear - MB VQ U0 BP BQ PQ1 L; nra).
  assert (YM : y <= Q /\ P <= Q) by (clear - BX' BP L PQ1; lra).
  destruct (add_val (p * x) q F1 FQ) as [F3 V3]; [rewrite <- Em, Rabs_pos_eq; lra|]. rewrite <- Em in V3. pose proof (rnd_pos (m + val q) ltac:(lra)) as R3. rewrite <- V3 in R3.
  destruct (add_val (- p * x) q F2 FQ) as [F4 V4]; [rewrite V2, Rabs_pos_eq; lra|]. rewrite V2 in V4. pose proof (rnd_pos (- m + val q) QM) as R4. rewrite <- V4 in R4.
  split; [split|].
  - split; [exact F3|]. rewrite <- PQ1, <- PQ3. clear - R3 MB VQ U0 PQ2 BP. nra.
  - split; [exact F4|]. rewrite <- PQ1, <- PQ3. clear - R4 MB VQ U0 PQ2 BP. nra.
  - split; apply Rabs_le; rewrite <- PQ3; [clear - R3 BM MB VQ U0 YM BX0 BP|clear - R4 BM MB VQ U0 YM BX0 BP].
    + assert (0 < m + val q <= 2 * Q) by nra. assert (u * (m + val q) <= u * (2 * Q)) by (apply Rmult_le_compat_l; lra). assert (0 <= u * y <= u * Q) by (split; [apply Rmult_le_pos; lra|apply Rmult_le_compat_l; lra]). assert (0 <= u * P) by (apply Rmult_le_pos; lra). split; nra.
    + assert (- m + val q <= 2 * Q) by nra. assert (u * (- m + val q) <= u * (2 * Q)) by (apply Rmult_le_compat_l; lra). assert (0 <= u * y <= u * Q) by (split; [apply Rmult_le_pos; lra|apply Rmult_le_compat_l; lra]). assert (0 <= u * P) by (apply Rmult_le_pos; lra). split; nra.
Qed.
Lemma node_inside lm lo hi x w : cell lo hi -> node_ok (x, w) ->
  let p := halfwidth lm lo hi in let q := centre lm lo hi in
  (fin (p * x + q) /\ val lo <= val (p * x + q) <= val hi) /\ (fin (- p * x + q) /\ val lo <= val (- p * x + q) <= val hi).
Proof. intros C H p q. exact (proj1 (node_accuracy lm lo hi x w C H)). Qed.

(** Every energy at which an integrand is evaluated lies in the cell, and where the rule of 8 points wants it to 10 units of the last place. *)
Theorem C26_binary64_nodes lm lo hi x w : cell lo hi -> In (x, w) (GL8_nodes (N:=NumF lm)) ->
  let p := halfwidth lm lo hi in let q := centre lm lo hi in
  ((fin (p * x + q) /\ val lo <= val (p * x + q) <= val hi) /\ (fin (- p * x + q) /\ val lo <= val (- p * x + q) <= val hi)) /\
  Rabs (val (p * x + q) - ((val hi + val lo) / 2 + (val hi - val lo) / 2 * val x)) <= 10 * u * val hi /\ Rabs (val (- p * x + q) - ((val hi + val lo) / 2 - (val hi - val lo) / 2 * val x)) <= 10 * u * val hi.
Proof. intros C H. apply (node_accuracy lm lo hi x w C). exact (proj1 (Forall_forall _ _) (nodes_ok lm) _ H). Qed.
Print Assumptions C26_binary64_nodes.

(** ** x is r up to the relative error k and the absolute error m *)
Definition near (x : float) (r k m : R) : Prop := fin x /\ Rabs (val x - r) <= k * r + m.
Lemma near_bounds x r k m : near x r k m -> r * (1 - k) - m <= val x <= r * (1 + k) + m.
Proof. intros [_ B]. apply Rabs_le_inv in B. lra. Qed.
Lemma near_weaken x r k m k' m' : near x r k m -> 0 <= r -> k <= k' -> m <= m' -> near x r k' m'.
Proof. intros [A B] R0 K M. split; [exact A|]. nra. Qed.
Lemma near_exact x : fin x -> near x (val x) 0 0.
Proof. intros H. split; [exact H|]. replace (val x - val x) with 0 by ring. rewrite Rabs_R0. lra. Qed.

Lemma rnd_near a r k m : 0 <= r -> 0 <= k <= 1 -> 0 <= m -> Rabs (a - r) <= k * r + m -> Rabs (rnd a - r) <= (k + 2 * u) * r + (m * (1 + u) + tiny).
Proof.
  intros R0 K M H. pose proof (rnd_error a) as E. pose proof (near_abs _ _ _ H) as B. rewrite (Rabs_pos_eq r) in B by exact R0.
  replace (rnd a - r) with ((rnd a - a) + (a - r)) by ring. eapply Rle_trans; [apply Rabs_triang|]. set (x := Rabs (rnd a - a)) in *. set (y := Rabs (a - r)) in *. set (z := Rabs a) in *. clearbody x y z.
  assert (U0 : 0 < u < / 10 ^ 15) by (unfold u; lra). assert (u * z <= u * (r + k * r + m)) by (apply Rmult_le_compat_l; lra). assert (k * r <= r) by nra. assert (u * (r + k * r + m) <= 2 * u * r + m * u) by nra. lra.
Qed.
Lemma near_add x y r s k m n : near x r k m -> near y s k n -> 0 <= r -> 0 <= s -> 0 <= k <= 1 -> 0 <= m <= 1 -> 0 <= n <= 1 -> r + s <= 10 ^ 150 ->
  near (x + y) (r + s) (k + 2 * u) ((m + n) * (1 + u) + tiny).
Proof.
  intros [X A] [Y B] R0 S0 K M M' H. assert (Q : Rabs (val x + val y - (r + s)) <= k * (r + s) + (m + n)).
  { replace (val x + val y - (r + s)) with ((val x - r) + (val y - s)) by ring. eapply Rle_trans; [apply Rabs_triang|]. lra. }
  pose proof (near_abs _ _ _ Q) as Z. rewrite (Rabs_pos_eq (r + s)) in Z by lra. pose proof big_big as BG. assert (T : 10 ^ 150 * 3 + 2 <= 10 ^ 200) by (rewrite (pow_IZR 10 150), (pow_IZR 10 200), <- mult_IZR, <- plus_IZR; apply IZR_le; vm_compute; discriminate).
  assert (k * (r + s) <= r + s) by (clear - K R0 S0; nra).
  destruct (add_val x y X Y ltac:(lra)) as [F V]. split; [exact F|]. rewrite V. apply rnd_near; lra.
Qed.
Lemma mul_core y x s r l k m : near y s l 0 -> near x r k m -> 0 <= s <= 10 ^ 20 -> 0 <= r <= 10 ^ 150 -> 0 <= l <= / 10 ^ 14 -> 0 <= k -> k + l <= / 10 ^ 13 -> 0 <= m <= 1 ->
  Rabs (val y * val x) <= big /\ Rabs (rnd (val y * val x) - s * r) <= (k + l + 3 * u) * (s * r) + (2 * m * s + tiny).
Proof.
  intros [Y A] [X B] S0 R0 L K KL M. assert (U0 : 0 < u < / 10 ^ 15 /\ / 10 ^ 28 <= u) by (unfold u; lra). assert (U1 : / 10 ^ 27 <= u) by (unfold u; lra).
  assert (Q : Rabs (val y * val x - s * r) <= (k + l + u) * (s * r) + m * s * (1 + / 10 ^ 10)).
  { replace (val y * val x - s * r) with ((val y - s) * r + (val x - r) * s + (val y - s) * (val x - r)) by ring.
    eapply Rle_trans; [apply Rabs_triang|]. eapply Rle_trans; [apply Rplus_le_compat_r, Rabs_triang|]. rewrite !Rabs_mult, (Rabs_pos_eq r), (Rabs_pos_eq s) by lra.
    pose proof (Rabs_pos (val y - s)). pose proof (Rabs_pos (val x - r)). set (a := Rabs (val y - s)) in *. set (b := Rabs (val x - r)) in *. clearbody a b.
    assert (a * r <= l * s * r) by (apply Rmult_le_compat_r; lra). assert (b * s <= (k * r + m) * s) by (apply Rmult_le_compat_r; lra).
    assert (a * b <= (l * s) * (k * r + m)) by (apply Rmult_le_compat; lra). assert (LK : l * k <= u). { assert (l * k <= / 10 ^ 14 * / 10 ^ 13) by (apply Rmult_le_compat; lra). lra. }
    assert (SR : 0 <= s * r) by (apply Rmult_le_pos; lra). assert (MS : 0 <= m * s) by (apply Rmult_le_pos; lra). assert (l * (m * s) <= / 10 ^ 10 * (m * s)) by (apply Rmult_le_compat_r; lra). assert (l * k * (s * r) <= u * (s * r)) by (apply Rmult_le_compat_r; lra). nra. }
  pose proof (near_abs _ _ _ Q) as Z. assert (SR : 0 <= s * r) by (apply Rmult_le_pos; lra). rewrite (Rabs_pos_eq (s * r)) in Z by lra. pose proof big_big as BG.
  assert (T : 10 ^ 20 * 10 ^ 150 * 3 + 10 ^ 21 <= 10 ^ 200) by (rewrite (pow_IZR 10 20), (pow_IZR 10 21), (pow_IZR 10 150), (pow_IZR 10 200), <- !mult_IZR, <- plus_IZR; apply IZR_le; vm_compute; discriminate).
  assert (SR' : s * r <= 10 ^ 20 * 10 ^ 150) by (apply Rmult_le_compat; lra). assert (MS : 0 <= m * s <= 10 ^ 20) by (split; [apply Rmult_le_pos; lra|]; replace (10 ^ 20) with (1 * 10 ^ 20) by ring; apply Rmult_le_compat; lra).
  assert ((k + l + u) * (s * r) <= s * r) by (clear - SR U0 KL K L; nra).
  split; [clear - Z BG T SR' MS H; lra|].
  assert (MP : 0 <= m * s * (1 + / 10 ^ 10)) by (apply Rmult_le_pos; lra).
  assert (KU : 0 <= k + l + u <= 1) by (clear - KL L K U0; lra).
  eapply Rle_trans; [apply (rnd_near _ (s * r) (k + l + u) (m * s * (1 + / 10 ^ 10)) SR KU MP Q)|]. assert ((k + l + u + 2 * u) * (s * r) = (k + l + 3 * u) * (s * r)) by ring. 
  assert (m * s * (1 + / 10 ^ 10) * (1 + u) <= 2 * (m * s)) by (clear - MS U0; set (z := m * s) in *; clearbody z; nra). lra.
Qed.
Lemma near_mul y x s r l k m : near y s l 0 -> near x r k m -> 0 <= s <= 10 ^ 20 -> 0 <= r <= 10 ^ 150 -> 0 <= l <= / 10 ^ 14 -> 0 <= k -> k + l <= / 10 ^ 13 -> 0 <= m <= 1 ->
  near (y * x) (s * r) (k + l + 3 * u) (2 * m * s + tiny).
Proof. intros A B S0 R0 L K KL M. destruct (mul_core y x s r l k m A B S0 R0 L K KL M) as [G Q]. destruct (mul_val y x (proj1 A) (proj1 B) G) as [F V]. split; [exact F|]. now rewrite V. Qed.
Lemma near_mul_r y x s r l k m : near y s l 0 -> near x r k m -> 0 <= s <= 10 ^ 20 -> 0 <= r <= 10 ^ 150 -> 0 <= l <= / 10 ^ 14 -> 0 <= k -> k + l <= / 10 ^ 13 -> 0 <= m <= 1 ->
  near (x * y) (r * s) (k + l + 3 * u) (2 * m * s + tiny).
Proof. intros A B S0 R0 L K KL M. destruct (mul_core y x s r l k m A B S0 R0 L K KL M) as [G Q]. rewrite Rmult_comm in G. destruct (mul_val x y (proj1 B) (proj1 A) G) as [F V]. split; [exact F|]. rewrite V. rewrite (Rmult_comm (val x)), (Rmult_comm r). exact Q. Qed.

(** ** The quadrature of a non-negative function *)
Definition get (f : float -> outcome float) (x : float) : R := match f x with Ok y => val y | UB _ => 0 end.
(** the weighted sum of the values found, without rounding *)
Fixpoint gsum (f : float -> outcome float) (nodes : list (float * float)) (p q : float) : R :=
  match nodes with
  | [] => 0
  | (x, w) :: nodes' => val w * (get f (p * x + q) + get f (- p * x + q)) + gsum f nodes' p q
  end.
Definition rule (lm : Libm) (f : float -> outcome float) (lo hi : float) : R :=
  (val hi - val lo) / 2 * gsum f (GL8_nodes (N:=NumF lm)) (halfwidth lm lo hi) (centre lm lo hi).
(** the integrand has a finite value between 0 and 1e100 between lo and hi *)
Definition moderate (f : float -> outcome float) (lo hi : R) : Prop :=
  forall x, fin x -> lo <= val x <= hi -> exists y, f x = Ok y /\ fin y /\ 0 <= val y <= 10 ^ 100.

Lemma gsum_bounds f lm lo hi nodes : cell lo hi -> Forall node_ok nodes -> moderate f (val lo) (val hi) -> 
  0 <= gsum f nodes (halfwidth lm lo hi) (centre lm lo hi) <= INR (length nodes) * 10 ^ 100.
Proof.
  intros C H M. induction H as [|[x w] l H HL IH]; [cbn; lra|]. cbn [gsum]. destruct (node_inside lm lo hi x w C H) as [[F1 B1] [F2 B2]]. cbn zeta in *. 
  destruct (M _ F1 B1) as (y1 & E1 & G1 & V1). destruct (M _ F2 B2) as (y2 & E2 & G2 & V2). assert (Q1 : get f (halfwidth lm lo hi * x + centre lm lo hi) = val y1) by (unfold get; now rewrite E1).
  assert (Q2 : get f (- halfwidth lm lo hi * x + centre lm lo hi) = val y2) by (unfold get; now rewrite E2). rewrite Q1, Q2. destruct H as (_ & _ & _ & W). cbn [snd] in W. cbn [length]. rewrite S_INR.
  set (g := gsum _ _ _ _) in *. clearbody g. set (b := 10 ^ 100) in *. clearbody b. nra.
Qed.

Lemma pairs_near lm f lo hi : cell lo hi -> moderate f (val lo) (val hi) -> forall nodes r s k m, Forall node_ok nodes -> near r s k m -> 0 <= val r -> 0 <= s -> s + INR (length nodes) * 10 ^ 100 <= 10 ^ 120 -> 6 * u <= k -> 
  k + 2 * u * INR (length nodes) <= / 10 ^ 13 -> 0 <= m -> m + 8 * tiny * INR (length nodes) <= 1000 * tiny ->
  exists v, gl_pairs (N:=NumF lm) nodes f (halfwidth lm lo hi) (centre lm lo hi) r = Ok v /\ 0 <= val v /\
    near v (s + gsum f nodes (halfwidth lm lo hi) (centre lm lo hi)) (k + 2 * u * INR (length nodes)) (m + 8 * tiny * INR (length nodes)).
Proof.
  intros C M. set (p := halfwidth lm lo hi). set (q := centre lm lo hi). pose proof tiny_le as TL. pose proof tiny_pos as TP. assert (U0 : 0 < u < / 10 ^ 15) by (unfold u; lra).
  assert (T1 : 2 * 10 ^ 100 + 1 <= 10 ^ 120 /\ 10 ^ 120 <= 10 ^ 150) by (rewrite (pow_IZR 10 100), (pow_IZR 10 120), (pow_IZR 10 150), <- mult_IZR, <- plus_IZR; split; apply IZR_le; vm_compute; discriminate).
  induction nodes as [|[x w] l IH]; intros r s k m FN NR R0 S0 SB K KB M0 MB.
  { cbn [gl_pairs gsum length INR]. exists r. split; [reflexivity|]. split; [exact R0|]. replace (s + 0) with s by ring. eapply near_weaken; [exact NR| | |]; lra. }
  inversion FN as [|? ? H FL]; subst. cbn [gl_pairs gsum length] in *. rewrite S_INR in *. destruct (node_inside lm lo hi x w C H) as [[F1 B1] [F2 B2]]. cbn zeta in *. fold p q in F1, B1, F2, B2.
  destruct (M _ F1 B1) as (y1 & E1 & G1 & V1). destruct (M _ F2 B2) as (y2 & E2 & G2 & V2). cbn [fadd fmul fneg NumF] in *. assert (Q1 : get f (p * x + q) = val y1) by (unfold get; now rewrite E1).
  assert (Q2 : get f (- p * x + q) = val y2) by (unfold get; now rewrite E2). rewrite E1, E2, Q1, Q2. cbn [bind]. destruct H as (FX & FW & _ & W). cbn [fst snd] in *. pose proof (pos_INR (length l)) as LP.
  pose proof (near_add y1 y2 (val y1) (val y2) 0 0 0 (near_exact _ G1) (near_exact _ G2) ltac:(lra) ltac:(lra) ltac:(lra) ltac:(lra) ltac:(lra) ltac:(lra)) as A1.
  pose proof (near_mul w (y1 + y2)%float (val w) (val y1 + val y2) 0 _ _ (near_exact _ FW) A1 ltac:(lra) ltac:(lra) ltac:(lra) ltac:(lra) ltac:(lra) ltac:(lra)) as A2.
  assert (WS : 0 <= val w * (val y1 + val y2) <= 10 ^ 100) by (clear - W V1 V2; set (b := 10 ^ 100) in *; clearbody b; nra).
  assert (A3 : near (w * (y1 + y2)) (val w * (val y1 + val y2)) k (4 * tiny)) by (eapply near_weaken; [exact A2| | |]; [lra|lra|clear - TP W; nra]).
  assert (SB' : s + val w * (val y1 + val y2) + INR (length l) * 10 ^ 100 <= 10 ^ 120) by (clear - SB WS; lra).
  assert (LB : 0 <= INR (length l) * 10 ^ 100) by (apply Rmult_le_pos; [exact LP|lra]).
  assert (TL' : 0 <= tiny * INR (length l) /\ 0 <= u * INR (length l)) by (split; apply Rmult_le_pos; lra).
  pose proof (near_add r _ s _ k m (4 * tiny) NR A3 S0 ltac:(lra) ltac:(lra) ltac:(lra) ltac:(lra) ltac:(lra)) as A4.
  destruct (IH (r + w * (y1 + y2))%float (s + val w * (val y1 + val y2)) (k + 2 * u) (m + 8 * tiny) FL) as (v & E & V & NV).
  - eapply near_weaken; [exact A4|lra|lra|]. assert (m * u <= 1000 * tiny * u) by (apply Rmult_le_compat_r; lra). clear - H U0 TP. nra.
  - destruct A1 as [D1 _]. destruct A2 as [D2 _]. destruct A4 as [D4 _]. destruct NR as [D5 _]. pose proof (add_nonneg y1 y2 G1 G2 D1 (proj1 V1) (proj1 V2)) as N1. pose proof (mul_nonneg w _ FW D1 D2 ltac:(lra) ltac:(lra)) as N2.
    pose proof (add_nonneg r _ D5 D2 D4 R0 N2). lra.
  - lra.
  - exact SB'.
  - lra.
  - lra.
  - lra.
  - lra.
  - exists v. split; [exact E|]. split; [exact V|]. rewrite <- Rplus_assoc. eapply near_weaken; [exact NV| | |]; [|lra|lra]. pose proof (gsum_bounds f lm lo hi l C FL M). fold p q in H. lra.
Qed.

Theorem C26_binary64 lm f lo hi : cell lo hi -> moderate f (val lo) (val hi) ->
  exists v, integrate (N:=NumF lm) f lo hi = Ok v /\ fin v /\ 0 <= val v /\ 0 <= rule lm f lo hi /\ Rabs (val v - rule lm f lo hi) <= 20 * u * rule lm f lo hi + 10 ^ 12 * tiny.
Proof.
  intros C M. unfold integrate, gl_integrate. change (Nat.odd 8) with false. cbn iota. pose proof tiny_le as TL. pose proof tiny_pos as TP. assert (U0 : 0 < u < / 10 ^ 15) by (unfold u; lra).
  assert (L4 : INR (length (GL8_nodes (N:=NumF lm))) = 4) by (unfold GL8_nodes, gl_nodes; cbn; lra).
  assert (T1 : 4 * 10 ^ 100 <= 10 ^ 120 /\ 10 ^ 120 <= 10 ^ 150) by (rewrite (pow_IZR 10 100), (pow_IZR 10 120), (pow_IZR 10 150), <- mult_IZR; split; apply IZR_le; vm_compute; discriminate).
  assert (F0 : fin (lit (Num:=NumF lm) 0.0) /\ val (lit (Num:=NumF lm) 0.0) = 0). { assert (A : app (lit (Num:=NumF lm) 0.0) 0 0) by (cbn [lit NumF]; closed_double (F_lit 0.0); lra). destruct A as [A B]. split; [exact A|]. apply Rabs_le_inv in B. lra. }
  destruct F0 as [F0 V0].
  destruct (pairs_near lm f lo hi C M (GL8_nodes (N:=NumF lm)) (lit (Num:=NumF lm) 0.0) 0 (6 * u) 0 (nodes_ok lm)) as (r & E & R0 & NR).
  { split; [exact F0|]. rewrite V0. replace (0 - 0) with 0 by ring. rewrite Rabs_R0. lra. }
  1-7: rewrite ?V0, ?L4; lra.
  change (fmul (Num:=NumF lm) (lit 0.5) (fsub hi lo)) with (halfwidth lm lo hi). change (fmul (Num:=NumF lm) (lit 0.5) (fadd hi lo)) with (centre lm lo hi). rewrite E. cbn [bind].
  eexists. split; [reflexivity|]. rewrite L4 in NR. destruct (pq lm lo hi C) as (FP & VP & _). pose proof (gsum_bounds f lm lo hi _ C (nodes_ok lm) M) as GB. rewrite L4 in GB. unfold rule. 
  destruct C as (FL & FH & L & D & U). set (g := gsum _ _ _ _) in *. set (p := halfwidth lm lo hi) in *. set (P := (val hi - val lo) / 2) in *. assert (PB : 0 < P <= 10 ^ 9) by (unfold P; lra).
  assert (NP : near p P (3 * u) 0) by (split; [exact FP|]; apply Rabs_le; lra). replace (0 + g) with g in NR by ring. clearbody P g.
  pose proof (near_mul p r P g (3 * u) _ _ NP NR ltac:(lra) ltac:(lra) ltac:(lra) ltac:(lra) ltac:(lra) ltac:(lra)) as [FV NV]. cbn [fmul NumF]. split; [exact FV|]. 
  split; [destruct NR as [NR _]; apply (mul_nonneg p r FP NR FV); [clear - VP U0 PB; nra|exact R0]|]. split; [apply Rmult_le_pos; lra|]. eapply Rle_trans; [exact NV|].
  assert (PG : 0 <= P * g) by (apply Rmult_le_pos; lra). assert (tiny * P <= tiny * 10 ^ 9) by (apply Rmult_le_compat_l; lra). clear - PG H U0 TP. nra.
Qed.
Print Assumptions C26_binary64.

(** ** The running sums *)
Lemma grid_cell lm i : exp_accurate lm -> (S i < 600)%nat -> cell (energyF lm i) (energyF lm (S i)).
Proof.
  intros EX H. destruct (energyF_bounds lm i EX ltac:(lia)) as (F & P & B). destruct (energyF_bounds lm (S i) EX ltac:(lia)) as (F' & P' & B'). destruct (C18_binary64_increasing lm i EX H) as [Q I1]. replace 1.037 with (1037 / 1000) in I1 by lra.
  pose proof (energy_low i ltac:(lia)). pose proof (energy_high (S i) ltac:(lia)). repeat (split; [assumption|]). repeat split; [|exact I1|]; lra.
Qed.
Lemma grid_range lm i : exp_accurate lm -> (i < 600)%nat -> val (energyF lm 0) <= val (energyF lm i) <= val (energyF lm 599).
Proof.
  intros EX H. split.
  - destruct (Nat.eq_dec i 0) as [->|N]; [lra|]. pose proof (increasing_F lm 0 i EX ltac:(lia)) as Q. replace 1.037 with (1037 / 1000) in Q by lra. destruct (energyF_bounds lm 0 EX ltac:(lia)) as (_ & P & B). nra.
  - destruct (Nat.eq_dec i 599) as [->|N]; [lra|]. pose proof (increasing_F lm i 599 EX ltac:(lia)) as Q. replace 1.037 with (1037 / 1000) in Q by lra. destruct (energyF_bounds lm i EX ltac:(lia)) as (_ & P & B). nra.
Qed.
(** A times the sum of the first k integrals, without rounding *)
Fixpoint total (lm : Libm) (A : float) (f : float -> outcome float) (k : nat) : R :=
  match k with O => 0 | S i => total lm A f i + val A * rule lm f (energyF lm i) (energyF lm (S i)) end.

Lemma rule_bound lm f i : exp_accurate lm -> moderate f (val (energyF lm 0)) (val (energyF lm 599)) -> (S i < 600)%nat -> 0 <= rule lm f (energyF lm i) (energyF lm (S i)) <= 4 * 10 ^ 109.
Proof.
  intros EX M H. pose proof (grid_cell lm i EX H) as C. assert (M' : moderate f (val (energyF lm i)) (val (energyF lm (S i)))).
  { intros x FX BX. pose proof (grid_range lm i EX ltac:(lia)). pose proof (grid_range lm (S i) EX ltac:(lia)). apply M; [exact FX|lra]. }
  pose proof (gsum_bounds f lm _ _ _ C (nodes_ok lm) M') as B. unfold rule. set (g := gsum _ _ _ _) in *. clearbody g.
  assert (L4 : INR (length (GL8_nodes (N:=NumF lm))) = 4) by (unfold GL8_nodes, gl_nodes; cbn; lra). rewrite L4 in B. destruct C as (_ & _ & L & D & U). set (P := (_ - _) / 2). assert (PB : 0 <= P <= 10 ^ 9) by (unfold P; lra). clearbody P.
  split; [apply Rmult_le_pos; lra|]. replace (4 * 10 ^ 109) with (10 ^ 9 * (4 * 10 ^ 100)) by ring. apply Rmult_le_compat; lra.
Qed.

Lemma accumulate_near lm A f : exp_accurate lm -> fin A -> 0 <= val A <= 10 ^ 10 -> moderate f (val (energyF lm 0)) (val (energyF lm 599)) -> forall n j prev k m,
  (j + n < 600)%nat -> near prev (total lm A f j) k m -> 0 <= val prev -> 0 <= total lm A f j -> total lm A f j + INR n * 10 ^ 121 <= 10 ^ 140 -> 30 * u <= k -> k + 2 * u * INR n <= / 10 ^ 12 ->
  0 <= m -> m + 10 ^ 25 * tiny * INR n <= 10 ^ 35 * tiny ->
  exists l, accumulate (N:=NumF lm) (scaled_integral (N:=NumF lm) A f) (energyF lm j) (map (energyF lm) (seq (S j) n)) prev = Ok l /\ length l = n /\
    (forall i, (i < n)%nat -> near (nth i l 0%float) (total lm A f (S (j + i))) (k + 2 * u * INR n) (m + 10 ^ 25 * tiny * INR n) /\ val (nth i (prev :: l) 0%float) <= val (nth i l 0%float)).
Proof.
  intros EX FA AB M. pose proof tiny_le as TL. pose proof tiny_pos as TP. assert (U0 : 0 < u < / 10 ^ 15) by (unfold u; lra).
  assert (T1 : 10 ^ 10 * (4 * 10 ^ 109) <= 10 ^ 121 /\ 10 ^ 140 + 10 ^ 140 <= 10 ^ 150 /\ 4 * 10 ^ 109 <= 10 ^ 150) by (rewrite (pow_IZR 10 10), (pow_IZR 10 109), (pow_IZR 10 121), (pow_IZR 10 140), (pow_IZR 10 150), <- !mult_IZR, <- plus_IZR; repeat split; apply IZR_le; vm_compute; discriminate).
  assert (T2 : 10 ^ 35 * tiny <= 1). { pose proof tiny_tiny. assert (10 ^ 35 * tiny <= 10 ^ 320 * tiny); [|lra]. apply Rmult_le_compat_r; [lra|]. apply Rle_pow; [lra|lia]. }
  induction n as [|n IH]; intros j prev k m J NP P0 T0 TB K KB M0 MB.
  { cbn [seq map accumulate]. exists []. repeat split; try reflexivity; intros; lia. }
  cbn [seq map accumulate]. rewrite S_INR in *. pose proof (pos_INR n) as NN. unfold scaled_integral at 1.
  assert (M' : moderate f (val (energyF lm j)) (val (energyF lm (S j)))).
  { intros x FX BX. pose proof (grid_range lm j EX ltac:(lia)). pose proof (grid_range lm (S j) EX ltac:(lia)). apply M; [exact FX|lra]. }
  destruct (C26_binary64 lm f _ _ (grid_cell lm j EX ltac:(lia)) M') as (v & E & FV & V0 & R0 & NV). rewrite E. cbn [bind]. cbn [fmul fadd NumF].
  pose proof (rule_bound lm f j EX M ltac:(lia)) as RB. set (q := rule lm f _ _) in *. 
  assert (T3 : 10 ^ 12 * tiny <= 1 /\ 10 ^ 23 * tiny <= 1) by (clear - T2 TP; lra).
  pose proof (near_mul A v (val A) q 0 (20 * u) (10 ^ 12 * tiny) (near_exact _ FA) (conj FV NV) ltac:(lra) ltac:(lra) ltac:(lra) ltac:(lra) ltac:(lra) ltac:(lra)) as N1.
  assert (AQ : 0 <= val A * q <= 10 ^ 121) by (split; [apply Rmult_le_pos; lra|]; apply Rle_trans with (10 ^ 10 * (4 * 10 ^ 109)); [apply Rmult_le_compat; lra|lra]).
  assert (N2 : near (A * v) (val A * q) k (10 ^ 23 * tiny)). { eapply near_weaken; [exact N1|lra|lra|]. assert (10 ^ 12 * tiny * val A <= 10 ^ 12 * tiny * 10 ^ 10) by (apply Rmult_le_compat_l; lra). clear - H TP. lra. }
  assert (UN : 0 <= u * INR n /\ 0 <= tiny * INR n /\ 0 <= INR n * 10 ^ 121) by (split; [|split]; apply Rmult_le_pos; lra).
  pose proof (near_add (A * v) prev (val A * q) (total lm A f j) k (10 ^ 23 * tiny) m N2 NP ltac:(lra) T0 ltac:(lra) ltac:(lra) ltac:(lra) ltac:(lra)) as N3.
  assert (TS : total lm A f (S j) = val A * q + total lm A f j) by (cbn [total]; fold q; ring).
  assert (N4 : near (A * v + prev) (total lm A f (S j)) (k + 2 * u) (m + 10 ^ 25 * tiny)).
  { rewrite TS. eapply near_weaken; [exact N3|lra|lra|]. assert (m * u <= 10 ^ 35 * tiny * u) by (apply Rmult_le_compat_r; lra). assert (10 ^ 35 * tiny * u <= 10 ^ 20 * tiny) by (clear - U0 TP; nra). assert (10 ^ 23 * tiny * u <= 10 ^ 23 * tiny) by (clear - U0 TP; nra). clear - H H0 H1 TP. lra. }
  assert (MO : 0 <= val (A * v) /\ val prev <= val (A * v + prev)). { destruct N1 as [D1 _]. destruct N4 as [D4 _]. destruct NP as [DP _]. assert (Q0 : 0 <= val (A * v)) by (apply mul_nonneg; [assumption..|lra|lra]). split; [exact Q0|]. now apply add_nonneg. }
  destruct (IH (S j) (A * v + prev)%float (k + 2 * u) (m + 10 ^ 25 * tiny)) as (l & EL & LL & NL); [lia|exact N4|lra|rewrite TS; lra|rewrite TS; lra|lra|lra|lra|lra|].
  rewrite EL. cbn [bind]. eexists. split; [reflexivity|]. split; [cbn; lia|]. intros i I0. destruct i as [|i].
  - cbn [nth]. rewrite Nat.add_0_r. split; [|tauto]. eapply near_weaken; [exact N4| | |]; rewrite ?TS; lra.
  - destruct (NL i ltac:(lia)) as [NA NB]. cbn [nth] in *. replace (S (j + S i)) with (S (S j + i)) by lia. split; [|exact NB]. 
    replace (k + 2 * u * (INR n + 1)) with (k + 2 * u + 2 * u * INR n) by ring. replace (m + 10 ^ 25 * tiny * (INR n + 1)) with (m + 10 ^ 25 * tiny + 10 ^ 25 * tiny * INR n) by ring. exact NA.
Qed.

(** For a non-negative integrand (the reciprocal stopping power, for the range table) the table of doubles starts at 0, never decreases, and is A times the sum of the exact weighted sums to 2e-13. *)
Theorem C28_binary64 lm A f : exp_accurate lm -> fin A -> 0 <= val A <= 10 ^ 10 -> moderate f (val (energyF lm 0)) (val (energyF lm 599)) ->
  exists l, table (N:=NumF lm) (scaled_integral (N:=NumF lm) A f) (et_values (tableF lm)) = Ok l /\ length l = 600%nat /\ val (nth 0 l 0%float) = 0 /\
    (forall i, (i < 600)%nat -> fin (nth i l 0%float) /\ Rabs (val (nth i l 0%float) - total lm A f i) <= 2 / 10 ^ 13 * total lm A f i + / 10 ^ 280) /\
    (forall i, (S i < 600)%nat -> val (nth i l 0%float) <= val (nth (S i) l 0%float)).
Proof.
  intros EX FA AB M. pose proof tiny_pos as TP. assert (U0 : 0 < u < / 10 ^ 15) by (unfold u; lra).
  assert (EV : et_values (tableF lm) = energyF lm 0 :: map (energyF lm) (seq 1 599)).
  { change (energyF lm 0 :: map (energyF lm) (seq 1 599)) with (map (energyF lm) (seq 0 600)). pose proof (proj1 (C18_binary64 lm EX)) as L. apply nth_ext with (d := 0%float) (d' := energyF lm 0); [rewrite map_length, seq_length; exact L|].
    intros i I0. rewrite map_nth, seq_nth by lia. reflexivity. }
  rewrite EV. cbn [table].
  assert (F0 : fin (lit (Num:=NumF lm) 0.0) /\ val (lit (Num:=NumF lm) 0.0) = 0). { assert (B : app (lit (Num:=NumF lm) 0.0) 0 0) by (cbn [lit NumF]; closed_double (F_lit 0.0); lra). destruct B as [B C]. split; [exact B|]. apply Rabs_le_inv in C. lra. }
  destruct F0 as [F0 V0]. assert (I599 : INR 599 = 599) by (rewrite INR_IZR_INZ; reflexivity).
  assert (T1 : 599 * 10 ^ 121 <= 10 ^ 140) by (rewrite (pow_IZR 10 121), (pow_IZR 10 140), <- mult_IZR; apply IZR_le; vm_compute; discriminate).
  destruct (accumulate_near lm A f EX FA AB M 599 0 (lit (Num:=NumF lm) 0.0) (30 * u) 0) as (l & E & LL & NL).
  { lia. } { split; [exact F0|]. rewrite V0. cbn [total]. replace (0 - 0) with 0 by ring. rewrite Rabs_R0. lra. }
  1-7: cbn [total]; rewrite ?V0, ?I599; try lra. { unfold u. lra. }
  rewrite E. cbn [bind]. eexists. split; [reflexivity|]. split; [cbn [length]; rewrite LL; reflexivity|]. split; [exact V0|].
  assert (TS : forall i, (i < 600)%nat -> 0 <= total lm A f i). { induction i as [|i IHi]; intros I0; [cbn; lra|]. cbn [total]. pose proof (rule_bound lm f i EX M ltac:(lia)) as [Q _]. assert (0 <= val A * rule lm f (energyF lm i) (energyF lm (S i))) by (apply Rmult_le_pos; lra). pose proof (IHi ltac:(lia)). lra. }
  assert (T2 : 10 ^ 25 * tiny * 599 <= / 10 ^ 280). { pose proof tiny_tiny as Q. replace (10 ^ 320) with (10 ^ 40 * 10 ^ 280) in Q by ring. assert (P280 : 0 < 10 ^ 280) by (apply pow_lt; lra). apply Rmult_le_reg_r with (10 ^ 280); [exact P280|]. rewrite Rinv_l by lra. assert (0 < tiny * 10 ^ 280) by (apply Rmult_lt_0_compat; lra). set (b := 10 ^ 280) in *. clearbody b. lra. }
  split.
  - intros [|i] I0; cbn [nth].
    + split; [exact F0|]. cbn [total]. rewrite V0. replace (0 - 0) with 0 by ring. rewrite Rabs_R0. assert (0 < / 10 ^ 280) by (apply Rinv_0_lt_compat, pow_lt; lra). lra.
    + destruct (NL i ltac:(lia)) as [[FF NF] _]. split; [exact FF|]. cbn [plus] in NF. rewrite I599 in NF. pose proof (TS (S i) I0). eapply Rle_trans; [exact NF|]. assert ((30 * u + 2 * u * 599) * total lm A f (S i) <= 2 / 10 ^ 13 * total lm A f (S i)) by (apply Rmult_le_compat_r; [lra|unfold u; lra]). lra.
  - intros i I0. destruct (NL i ltac:(lia)) as [_ NB]. exact NB.
Qed.
Print Assumptions C28_binary64.

(** The integrals of the constant 1, starting at the first energy: the energies again *)
Definition one (_ : float) : outcome float := Ok 1%float.
Lemma one_val : fin 1%float /\ val 1%float = 1.
Proof. assert (A : app 1%float 1 0) by (closed_double 1%float; lra). destruct A as [A B]. split; [exact A|]. apply Rabs_le_inv in B. lra. Qed.
Lemma gsum_one lm p q : Rabs (gsum one (GL8_nodes (N:=NumF lm)) p q - 2) <= / 10 ^ 14.
Proof.
  unfold GL8_nodes, gl_nodes. cbn [map combine lit NumF GL8_x GL8_w gsum]. unfold get, one. rewrite (proj2 one_val).
  repeat match goal with |- context [val ?c] => let s := eval vm_compute in (Prim2SF c) in rewrite (val_SF c); replace (Prim2SF c) with s by (vm_compute; reflexivity) end.
  cbn [SFR Z.leb Z.compare Z.opp Z.pow Z.pow_pos Pos.iter Z.mul Pos.mul]. apply Rabs_le. lra.
Qed.
Example C28_binary64_case : let lm := rounded_libm in exists l, table (N:=NumF lm) (scaled_integral (N:=NumF lm) 1%float one) (et_values (tableF lm)) = Ok l /\
  forall i, (i < 600)%nat -> Rabs (val (nth i l 0%float) - (val (energyF lm i) - val (energyF lm 0))) <= 3 / 10 ^ 13 * (val (energyF lm i) - val (energyF lm 0)) + / 10 ^ 280.
Proof.
  intros lm. pose proof (proj1 rounded_accurate) as EX. fold lm in EX. assert (U0 : 0 < u < / 10 ^ 15) by (unfold u; lra). destruct one_val as [F1 V1].
  assert (M : moderate one (val (energyF lm 0)) (val (energyF lm 599))). { intros x _ _. exists 1%float. rewrite V1. split; [reflexivity|]. split; [exact F1|]. split; [lra|]. rewrite <- (pow1 100). apply pow_incr. lra. }
  destruct (C28_binary64 lm 1%float one EX F1 ltac:(rewrite V1; lra) M) as (l & E & _ & _ & N & _). exists l. split; [exact E|]. intros i I0. destruct (N i I0) as [_ Q].
  assert (T : forall j, (j < 600)%nat -> Rabs (total lm 1%float one j - (val (energyF lm j) - val (energyF lm 0))) <= / 10 ^ 14 * (val (energyF lm j) - val (energyF lm 0))).
  { induction j as [|j IH]; intros J; [cbn [total]; apply Rabs_le; lra|]. specialize (IH ltac:(lia)). cbn [total]. unfold rule. rewrite V1. pose proof (gsum_one lm (halfwidth lm (energyF lm j) (energyF lm (S j))) (centre lm (energyF lm j) (energyF lm (S j)))) as G. set (g := gsum _ _ _ _) in *. clearbody g.
    destruct (C18_binary64_increasing lm j EX J) as [P D]. replace 1.037 with (1037 / 1000) in D by lra. set (a := val (energyF lm j)) in *. set (b := val (energyF lm (S j))) in *. set (z := val (energyF lm 0)) in *. set (t := total lm 1%float one j) in *. clearbody a b z t.
    apply Rabs_le_inv in IH. apply Rabs_le_inv in G. apply Rabs_le. clear - IH G P D. assert (0 < b - a) by lra. nra. }
  specialize (T i I0). pose proof (grid_range lm i EX I0) as GR. set (d := val (energyF lm i) - val (energyF lm 0)) in *. assert (D0 : 0 <= d) by (unfold d; lra). set (t := total lm 1%float one i) in *. set (y := val (nth i l 0%float)) in *. clearbody d t y. assert (Z : 0 < / 10 ^ 280) by (apply Rinv_0_lt_compat, pow_lt; lra). set (eta := / 10 ^ 280) in *. clearbody eta.
  apply Rabs_le_inv in T. apply Rabs_le_inv in Q. apply Rabs_le. clear - T Q D0 Z. split; nra.
Qed.
