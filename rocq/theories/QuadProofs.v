(** * Quadrature rules over the reals (support for C26-C28 and C47) *)
From Coq Require Import ZArith QArith Reals Qreals List Bool Lra Lia.
From Verif Require Import Num NumR Structures Integrator DataQuadrature SpecData DataProofs.
Import ListNotations.
Local Open Scope R_scope.

(** the sum over the nodes of a rule with [odd] telling whether the first node is the centre *)
Fixpoint pair_sum (nodes : list (R * R)) (f : R -> R) (p q : R) : R :=
  match nodes with
  | [] => 0
  | (x, w) :: l => w * (f (p * x + q) + f (- p * x + q)) + pair_sum l f p q
  end.
Definition node_sum (odd : bool) (nodes : list (R * R)) (f : R -> R) (p q : R) : R :=
  if odd then match nodes with [] => 0 | (x, w) :: l => w * f (p * x + q) + pair_sum l f p q end
  else pair_sum nodes f p q.

Lemma pairs_value nodes f p q : forall r, gl_pairs (F:=R) nodes (fun x => Ok (f x)) p q r = Ok (r + pair_sum nodes f p q).
Proof.
  induction nodes as [|[x w] l IH]; intros r; cbn [gl_pairs pair_sum bind].
  - f_equal. ring.
  - rewrite IH. f_equal. numR. ring.
Qed.
Lemma half : Rlit 0.5 = 1 / 2. Proof. dec_norm. lra. Qed.
Lemma zero : Rlit 0.0 = 0. Proof. dec_norm. lra. Qed.
Lemma gl_value n nodes f a b : (Nat.odd n = true -> nodes <> []) ->
  gl_integrate (F:=R) n nodes (fun x => Ok (f x)) a b =
  Ok ((b - a) / 2 * node_sum (Nat.odd n) nodes f ((b - a) / 2) ((b + a) / 2)).
Proof.
  intros NE. unfold gl_integrate, node_sum. numR. rewrite half, zero.
  replace (1 / 2 * (b - a)) with ((b - a) / 2) by field. replace (1 / 2 * (b + a)) with ((b + a) / 2) by field.
  destruct (Nat.odd n).
  - destruct nodes as [|[x w] l]; [now elim NE|]. cbn [bind]. rewrite pairs_value. cbn [bind]. f_equal. ring.
  - rewrite pairs_value. cbn [bind]. f_equal. ring.
Qed.

(** ** Facts about sums over nodes *)
Lemma pair_lin nodes f g p q s t :
  pair_sum nodes (fun x => s * f x + t * g x) p q = s * pair_sum nodes f p q + t * pair_sum nodes g p q.
Proof. induction nodes as [|[x w] l IH]; cbn [pair_sum]; [ring|]. rewrite IH. ring. Qed.
Lemma node_lin o nodes f g p q s t :
  node_sum o nodes (fun x => s * f x + t * g x) p q = s * node_sum o nodes f p q + t * node_sum o nodes g p q.
Proof.
  unfold node_sum. destruct o; [|apply pair_lin]. destruct nodes as [|[x w] l]; [ring|]. rewrite pair_lin. ring.
Qed.
Lemma pair_swap nodes f p q : pair_sum nodes f (- p) q = pair_sum nodes f p q.
Proof.
  induction nodes as [|[x w] l IH]; cbn [pair_sum]; [reflexivity|]. rewrite IH. rewrite Ropp_involutive. ring.
Qed.
Lemma pair_le nodes f g p q : (forall n, In n nodes -> 0 <= snd n /\ f (p * fst n + q) <= g (p * fst n + q) /\ f (- p * fst n + q) <= g (- p * fst n + q)) ->
  pair_sum nodes f p q <= pair_sum nodes g p q.
Proof.
  induction nodes as [|[x w] l IH]; intros H; cbn [pair_sum]; [lra|].
  destruct (H (x, w) (or_introl eq_refl)) as (W & A & B). cbn [fst snd] in *.
  apply Rplus_le_compat; [apply Rmult_le_compat_l; lra|]. apply IH. intros n Hn. apply H. now right.
Qed.
Lemma pair_lt nodes f g p q : nodes <> [] ->
  (forall n, In n nodes -> 0 < snd n /\ f (p * fst n + q) < g (p * fst n + q) /\ f (- p * fst n + q) < g (- p * fst n + q)) ->
  pair_sum nodes f p q < pair_sum nodes g p q.
Proof.
  destruct nodes as [|[x w] l]; [contradiction|]. intros _ H. cbn [pair_sum].
  destruct (H (x, w) (or_introl eq_refl)) as (W & A & B). cbn [fst snd] in *.
  apply Rplus_lt_le_compat; [apply Rmult_lt_compat_l; lra|]. apply pair_le. intros n Hn.
  destruct (H n (or_intror Hn)) as (W' & A' & B'). lra.
Qed.

(** ** The rules of the library *)
Definition gl_rules : list (nat * list dec * list dec) :=
  [(3, GL3_x, GL3_w); (4, GL4_x, GL4_w); (5, GL5_x, GL5_w); (6, GL6_x, GL6_w); (7, GL7_x, GL7_w);
   (8, GL8_x, GL8_w); (10, GL10_x, GL10_w); (12, GL12_x, GL12_w); (14, GL14_x, GL14_w); (16, GL16_x, GL16_w);
   (20, GL20_x, GL20_w); (32, GL32_x, GL32_w); (64, GL64_x, GL64_w); (128, GL128_x, GL128_w)]%nat.

(** nodes in [0, 1), weights positive, the first node the centre exactly for odd orders, right number *)
Definition rule_check (r : nat * list dec * list dec) : bool :=
  let '(n, xs, ws) := r in
  Nat.eqb (length xs) (Nat.div2 n + (if Nat.odd n then 1 else 0)) && Nat.eqb (length ws) (length xs) &&
  negb (Nat.eqb (length xs) 0) &&
  forallb (fun x => (0 <=? dec_mant x)%Z && negb (Qle_bool 1 (dec_Q x))) xs &&
  forallb (fun w => (0 <? dec_mant w)%Z) ws &&
  (if Nat.odd n then (dec_mant (hd 1%dec xs) =? 0)%Z else (0 <? dec_mant (hd 0%dec xs))%Z).
Lemma rules_checked : forallb rule_check gl_rules = true.
Proof. vm_compute. reflexivity. Qed.

Record rule_good (n : nat) (xs ws : list dec) : Prop := {
  rg_len : length xs = (Nat.div2 n + (if Nat.odd n then 1 else 0))%nat;
  rg_same : length ws = length xs;
  rg_ne : xs <> [];
  rg_x : forall x, In x xs -> 0 <= Rlit x < 1;
  rg_w : forall w, In w ws -> 0 < Rlit w;
  rg_centre : Nat.odd n = true -> Rlit (hd 1%dec xs) = 0 }.

Lemma Rlit_nonneg a : (0 <= Rlit a)%R <-> (0 <=? dec_mant a)%Z = true.
Proof.
  rewrite Z.leb_le. split.
  - intros H. destruct (Z.lt_trichotomy (dec_mant a) 0) as [L|[E|G]]; [|lia|lia]. exfalso.
    destruct a as [m e]. cbn [dec_mant] in L.
    assert (P : 0 < Rlit (Dec (- m) e)) by (apply Rlit_pos; cbn [dec_mant]; apply Z.ltb_lt; lia).
    revert P H. unfold Rlit. destruct e; rewrite ?opp_IZR; rewrite ?Zopp_mult_distr_l_reverse, ?opp_IZR; unfold Rdiv; rewrite ?Ropp_mult_distr_l_reverse; lra.
  - intros H. destruct (Z.eq_dec (dec_mant a) 0) as [E|E]; [rewrite (Rlit_0 a E); lra|].
    left. apply Rlit_pos. apply Z.ltb_lt. lia.
Qed.

Lemma rule_ok n xs ws : In (n, xs, ws) gl_rules -> rule_good n xs ws.
Proof.
  intros H. pose proof rules_checked as C. rewrite forallb_forall in C. specialize (C _ H). unfold rule_check in C.
  rewrite !andb_true_iff in C. destruct C as (((((C1 & C2) & C3) & C4) & C5) & C6).
  apply Nat.eqb_eq in C1, C2. rewrite forallb_forall in C4, C5. constructor.
  - exact C1.
  - exact C2.
  - intros ->. discriminate C3.
  - intros x Hx. specialize (C4 x Hx). rewrite andb_true_iff in C4. destruct C4 as [A B]. split; [now apply Rlit_nonneg|].
    rewrite Rlit_Q. replace 1 with (Q2R 1) by (unfold Q2R; simpl; lra). apply Qlt_Rlt. apply Qnot_le_lt. intros L.
    apply Qle_bool_iff in L. rewrite L in B. discriminate.
  - intros w Hw. apply Rlit_pos. now apply C5.
  - intros O. rewrite O in C6. apply Rlit_0. now apply Z.eqb_eq.
Qed.

Lemma nodes_in xs ws n : In n (gl_nodes (F:=R) xs ws) -> exists x w, In x xs /\ In w ws /\ n = (Rlit x, Rlit w).
Proof.
  unfold gl_nodes. destruct n as [a b]. intros H.
  pose proof (in_combine_l _ _ _ _ H) as A. pose proof (in_combine_r _ _ _ _ H) as B.
  apply in_map_iff in A, B. destruct A as (x & <- & A). destruct B as (w & <- & B). exists x, w. auto.
Qed.
Lemma nodes_ne n xs ws : rule_good n xs ws -> gl_nodes (F:=R) xs ws <> [].
Proof.
  intros G. destruct G. unfold gl_nodes. destruct xs; [contradiction|]. destruct ws; [discriminate|]. discriminate.
Qed.
Lemma nodes_range n xs ws : rule_good n xs ws -> forall z, In z (gl_nodes (F:=R) xs ws) -> 0 <= fst z < 1 /\ 0 < snd z.
Proof.
  intros G z Hz. destruct (nodes_in xs ws z Hz) as (x & w & X & W & ->). cbn [fst snd].
  split; [now apply (rg_x _ _ _ G)|now apply (rg_w _ _ _ G)].
Qed.

(** where a rule evaluates its integrand *)
Lemma inside a b x : a < b -> 0 <= x < 1 ->
  a < (b - a) / 2 * x + (b + a) / 2 < b /\ a < - ((b - a) / 2) * x + (b + a) / 2 < b.
Proof. intros L X. split; split; nra. Qed.

(** ** Moments by fixed-point arithmetic *)
Section Fixed.
  Variable S : Z.
  Hypothesis S0 : (0 <= S)%Z.
  Let one := (2 ^ S)%Z.
  Let h : R := / IZR one.

  Lemma one_pos : (0 < one)%Z. Proof. apply Z.pow_pos_nonneg; lia. Qed.
  Lemma h_pos : 0 < h. Proof. apply Rinv_0_lt_compat, IZR_lt, one_pos. Qed.
  Lemma one_h : IZR one * h = 1.
  Proof. unfold h. apply Rinv_r. pose proof (IZR_lt _ _ one_pos). lra. Qed.

  (** x lies in [X, X + 1) units of 2^-S *)
  Definition approx (x : R) (X : Z) (k : R) : Prop := 0 <= x - IZR X * h <= k * h.

  Definition fix_dec (d : dec) : Z :=
    match d with Dec m e => if (e <=? 0)%Z then (m * one / 10 ^ (- e))%Z else (m * 10 ^ e * one)%Z end.
  Lemma fix_ok d : approx (Rlit d) (fix_dec d) 1.
  Proof.
    destruct d as [m e]. unfold approx, fix_dec. pose proof h_pos as HP. pose proof one_h as OH.
    destruct (Z.leb_spec e 0) as [L|L].
    - assert (T : (0 < 10 ^ (- e))%Z) by (apply Z.pow_pos_nonneg; lia).
      assert (E : Rlit (Dec m e) = IZR m / IZR (10 ^ (- e))).
      { unfold Rlit. destruct e as [|q|q]; [| lia |reflexivity]. change (10 ^ - 0)%Z with 1%Z. change (10 ^ 0)%Z with 1%Z. rewrite Z.mul_1_r. field. }
      rewrite E. set (D := (10 ^ (- e))%Z) in *. pose proof (Z.div_mod (m * one) D ltac:(lia)) as DM.
      pose proof (Z.mod_pos_bound (m * one) D T) as MB. set (qq := (m * one / D)%Z) in *. set (rr := ((m * one) mod D)%Z) in *.
      assert (DP : 0 < IZR D) by (apply IZR_lt; lia).
      assert (EQ : IZR m / IZR D - IZR qq * h = IZR rr / IZR D * h).
      { replace (IZR m) with (IZR (m * one) * h) by (rewrite mult_IZR, Rmult_assoc, OH; ring).
        rewrite DM, plus_IZR, mult_IZR. field. lra. }
      rewrite EQ.
      assert (0 <= IZR rr / IZR D <= 1).
      { split; [apply Rmult_le_pos; [apply IZR_le; lia|left; apply Rinv_0_lt_compat; exact DP]|].
        apply Rmult_le_reg_r with (IZR D); [exact DP|]. unfold Rdiv. rewrite Rmult_assoc, Rinv_l, Rmult_1_r by lra.
        rewrite Rmult_1_l. apply IZR_le. lia. }
      split; [apply Rmult_le_pos; lra|apply Rmult_le_compat_r; lra].
    - assert (E : Rlit (Dec m e) = IZR (m * 10 ^ e)) by (unfold Rlit; destruct e; [lia|reflexivity|lia]).
      rewrite E. rewrite (mult_IZR (m * 10 ^ e) one), Rmult_assoc, OH. lra.
  Qed.

  (** one more power *)
  Lemma pow_step x X m v V k : 0 <= x <= 1 -> 0 <= v <= 1 -> (0 <= V)%Z -> (0 <= X)%Z ->
    approx x X m -> approx v V k -> 0 <= k -> 0 <= m ->
    approx (v * x) (Z.shiftr (V * X) S) (k + m + 1).
  Proof.
    intros Hx Hv VP XP Ax Av K MM. unfold approx in *. pose proof h_pos as HP. pose proof one_h as OH.
    rewrite Z.shiftr_div_pow2 by exact S0. fold one.
    pose proof (Z.div_mod (V * X) one ltac:(pose proof one_pos; lia)) as DM.
    pose proof (Z.mod_pos_bound (V * X) one one_pos) as MB.
    set (qq := (V * X / one)%Z) in *. set (rr := ((V * X) mod one)%Z) in *.
    assert (EQ : IZR V * h * (IZR X * h) - IZR qq * h = IZR rr * h * h).
    { replace (IZR V * h * (IZR X * h)) with (IZR (V * X) * h * h) by (rewrite mult_IZR; ring).
      rewrite DM, plus_IZR, mult_IZR. replace ((IZR one * IZR qq + IZR rr) * h * h) with (IZR one * h * (IZR qq * h) + IZR rr * h * h) by ring.
      rewrite OH. ring. }
    assert (RB : 0 <= IZR rr * h <= 1).
    { split; [apply Rmult_le_pos; [apply IZR_le; lia|lra]|]. rewrite <- OH. apply Rmult_le_compat_r; [lra|]. apply IZR_le. lia. }
    set (vv := IZR V * h) in *. set (xx := IZR X * h) in *.
    assert (V0 : 0 <= vv) by (unfold vv; apply Rmult_le_pos; [apply IZR_le; lia|lra]).
    assert (X0 : 0 <= xx) by (unfold xx; apply Rmult_le_pos; [apply IZR_le; lia|lra]).
    assert (E2 : v * x - IZR qq * h = (v - vv) * x + vv * (x - xx) + IZR rr * h * h) by (rewrite <- EQ; ring).
    rewrite E2.
    assert (A : 0 <= (v - vv) * x <= k * h * 1) by (split; [apply Rmult_le_pos; lra|apply Rmult_le_compat; lra]).
    assert (B : 0 <= vv * (x - xx) <= 1 * (m * h)) by (split; [apply Rmult_le_pos; lra|apply Rmult_le_compat; lra]).
    assert (C : 0 <= IZR rr * h * h <= 1 * h) by (split; [apply Rmult_le_pos; lra|apply Rmult_le_compat_r; lra]).
    lra.
  Qed.

  (** the square of a node, and the products of a weight with the powers of that square *)
  Definition square_fix (X : Z) : Z := Z.shiftr (X * X) S.
  Fixpoint wpow_fix (W Y : Z) (j : nat) : Z := match j with O => W | Datatypes.S j' => Z.shiftr (wpow_fix W Y j' * Y) S end.
  Lemma wpow_fix_ok w W y Y j : 0 <= w <= 1 -> (0 <= W)%Z -> approx w W 1 -> 0 <= y <= 1 -> (0 <= Y)%Z -> approx y Y 3 ->
    approx (w * y ^ j) (wpow_fix W Y j) (1 + 4 * INR j) /\ (0 <= wpow_fix W Y j)%Z.
  Proof.
    intros Hw WP Aw Hy YP Ay. induction j as [|j [IH IP]].
    - cbn [pow wpow_fix INR]. rewrite Rmult_1_r. replace (1 + 4 * 0) with 1 by ring. auto.
    - cbn [wpow_fix]. split.
      + replace (w * y ^ Datatypes.S j) with (w * y ^ j * y) by (cbn [pow]; ring).
        rewrite S_INR. replace (1 + 4 * (INR j + 1)) with (1 + 4 * INR j + 3 + 1) by ring.
        pose proof (pos_INR j). apply pow_step; auto; try lra.
        assert (0 <= y ^ j <= 1) by (split; [apply pow_le; lra|]; rewrite <- (pow1 j); apply pow_incr; lra). nra.
      + apply Z.shiftr_nonneg. apply Z.mul_nonneg_nonneg; assumption.
  Qed.

  (** sum over the nodes, with weight 2 for a pair *)
  Fixpoint sum2 (l : list Z) : Z := match l with [] => 0%Z | V :: l' => (2 * V + sum2 l')%Z end.
  Definition sum_fix (odd : bool) (l : list Z) : Z :=
    if odd then match l with [] => 0%Z | V :: l' => (V + sum2 l')%Z end else sum2 l.

  (** even powers *)
  Lemma pow_opp_even x k : Nat.even k = true -> (- x) ^ k = x ^ k.
  Proof.
    intros E. apply Nat.even_spec in E. destruct E as [j ->]. rewrite !pow_mult. f_equal. ring.
  Qed.
  Lemma pow_opp_odd x k : Nat.odd k = true -> (- x) ^ k = - x ^ k.
  Proof.
    intros E. apply Nat.odd_spec in E. destruct E as [j ->]. rewrite !pow_add, !pow_mult.
    replace ((- x) ^ 2) with (x ^ 2) by ring. ring.
  Qed.

  Lemma fix_nonneg d : 0 <= Rlit d -> (0 <= fix_dec d)%Z.
  Proof.
    intros H. apply Rlit_nonneg in H. destruct d as [m e]. cbn [dec_mant] in H. apply Z.leb_le in H. unfold fix_dec.
    pose proof one_pos. destruct (Z.leb_spec e 0).
    - apply Z.div_pos; [apply Z.mul_nonneg_nonneg; lia|apply Z.pow_pos_nonneg; lia].
    - apply Z.mul_nonneg_nonneg; [apply Z.mul_nonneg_nonneg; [lia|apply Z.pow_nonneg; lia]|lia].
  Qed.

  Variable xs ws : list dec.
  Hypothesis same : length ws = length xs.
  Hypothesis xr : forall x, In x xs -> 0 <= Rlit x < 1.
  Hypothesis wr : forall w, In w ws -> 0 < Rlit w <= 1.

  Definition products (j : nat) : list Z := map (fun p => wpow_fix (fix_dec (snd p)) (square_fix (fix_dec (fst p))) j) (combine xs ws).
  Lemma product_ok x w j : 0 <= Rlit x < 1 -> 0 < Rlit w <= 1 ->
    0 <= Rlit w * Rlit x ^ (2 * j) - IZR (wpow_fix (fix_dec w) (square_fix (fix_dec x)) j) * h <= (1 + 4 * INR j) * h.
  Proof.
    intros HX HW. assert (XP : (0 <= fix_dec x)%Z) by (apply fix_nonneg; lra). rewrite pow_mult. 
    assert (SQ : approx (Rlit x * Rlit x) (square_fix (fix_dec x)) 3).
    { replace 3 with (1 + 1 + 1) by ring. apply pow_step; auto; try lra; apply fix_ok. }
    replace (Rlit x ^ 2) with (Rlit x * Rlit x) by ring.
    apply wpow_fix_ok; try lra; [apply fix_nonneg; lra|apply fix_ok|nra| |exact SQ].
    apply Z.shiftr_nonneg. apply Z.mul_nonneg_nonneg; assumption.
  Qed.

  Lemma sum2_ok j :
    0 <= pair_sum (gl_nodes xs ws) (fun x => x ^ (2 * j)) 1 0 - IZR (sum2 (products j)) * h <= 2 * INR (length xs) * ((1 + 4 * INR j) * h).
  Proof.
    unfold products, gl_nodes. revert xs ws same xr wr.
    induction xs as [|x l IH]; intros [|w l'] SM XR WR; try discriminate; cbn [map combine pair_sum sum2 length fst snd].
    - cbn [INR]. lra.
    - injection SM as SM.
      assert (HX : 0 <= Rlit x < 1) by (apply XR; now left). assert (HW : 0 < Rlit w <= 1) by (apply WR; now left).
      specialize (IH l' SM (fun y Hy => XR y (or_intror Hy)) (fun y Hy => WR y (or_intror Hy))).
      pose proof (product_ok x w j HX HW) as PO.
      change (lit x : R) with (Rlit x). change (lit w : R) with (Rlit w).
      replace (1 * Rlit x + 0) with (Rlit x) by ring. replace (- (1) * Rlit x + 0) with (- Rlit x) by ring.
      rewrite (pow_opp_even (Rlit x) (2 * j)) by (apply Nat.even_spec; now exists j). rewrite plus_IZR, (mult_IZR 2).
      rewrite S_INR. set (T := (1 + 4 * INR j) * h) in *.
      match goal with |- context [pair_sum ?a ?b ?c ?d] => set (PS := pair_sum a b c d) in * end.
      set (Sm := IZR (sum2 _)) in *. set (P1 := IZR (wpow_fix _ _ _)) in *. set (xk := Rlit x ^ (2 * j)) in *.
      replace (2 * (INR (length l) + 1) * T) with (2 * T + 2 * INR (length l) * T) by ring.
      replace (Rlit w * (xk + xk) + PS - (2 * P1 + Sm) * h) with (2 * (Rlit w * xk - P1 * h) + (PS - Sm * h)) by ring.
      lra.
  Qed.
End Fixed.

Lemma pair_odd nodes k : Nat.odd k = true -> pair_sum nodes (fun x => x ^ k) 1 0 = 0.
Proof.
  intros O. induction nodes as [|[x w] l IH]; cbn [pair_sum]; [reflexivity|]. rewrite IH.
  replace (1 * x + 0) with x by ring. replace (- (1) * x + 0) with (- x) by ring. rewrite pow_opp_odd by exact O. ring.
Qed.

Lemma sum_ok S odd xs ws j : (0 <= S)%Z -> length ws = length xs ->
  (forall x, In x xs -> 0 <= Rlit x < 1) -> (forall w, In w ws -> 0 < Rlit w <= 1) ->
  let h := / IZR (2 ^ S) in
  0 <= node_sum odd (gl_nodes xs ws) (fun x => x ^ (2 * j)) 1 0 - IZR (sum_fix odd (products S xs ws j)) * h
    <= 2 * INR (length xs) * ((1 + 4 * INR j) * h).
Proof.
  intros S0 SM XR WR. cbv zeta. destruct odd; [|exact (sum2_ok S S0 xs ws SM XR WR j)].
  unfold node_sum, sum_fix. pose proof (h_pos S S0) as HP. pose proof (pos_INR j) as KP.
  destruct xs as [|x l]; destruct ws as [|w l']; try discriminate; unfold gl_nodes, products; cbn [map combine length fst snd]; [cbn [INR]; lra|].
  injection SM as SM.
  pose proof (sum2_ok S S0 l l' SM (fun y Hy => XR y (or_intror Hy)) (fun y Hy => WR y (or_intror Hy)) j) as S2.
  unfold gl_nodes, products in S2.
  assert (HX : 0 <= Rlit x < 1) by (apply XR; now left). assert (HW : 0 < Rlit w <= 1) by (apply WR; now left).
  pose proof (product_ok S S0 x w j HX HW) as PO.
  change (lit x : R) with (Rlit x). change (lit w : R) with (Rlit w).
  replace (1 * Rlit x + 0) with (Rlit x) by ring. rewrite plus_IZR, S_INR.
  set (hh := / IZR (2 ^ S)) in *. set (T := (1 + 4 * INR j) * hh) in *.
  match goal with |- context [pair_sum ?a ?b ?c ?d] => set (PS := pair_sum a b c d) in * end.
  set (Sm := IZR (sum2 _)) in *. set (P1 := IZR (wpow_fix _ _ _ _)) in *.
  assert (0 <= T) by (unfold T; apply Rmult_le_pos; lra).
  replace (Rlit w * Rlit x ^ (2 * j) + PS - (P1 + Sm) * hh)
    with ((Rlit w * Rlit x ^ (2 * j) - P1 * hh) + (PS - Sm * hh)) by ring.
  replace (2 * (INR (length l) + 1) * T) with (2 * T + 2 * INR (length l) * T) by ring. lra.
Qed.

(** the check that the even moments 0, 2, .. are those of the integral over [-1, 1] up to 1/T *)
Definition moment_close (S T M : Z) (j : nat) : bool :=
  (2 * T * Z.abs (Z.of_nat (2 * j + 1) * M - 2 * 2 ^ S) <=? Z.of_nat (2 * j + 1) * 2 ^ S)%Z.
Fixpoint moments_loop (S T : Z) (odd : bool) (Ys Vs : list Z) (j fuel : nat) : bool :=
  match fuel with
  | O => true
  | Datatypes.S fuel' =>
      moment_close S T (sum_fix odd Vs) j &&
      moments_loop S T odd Ys (map (fun yv => Z.shiftr (snd yv * fst yv) S) (combine Ys Vs)) (Datatypes.S j) fuel'
  end.
Definition moments_check (S T : Z) (odd : bool) (xs ws : list dec) (deg : nat) : bool :=
  (2 * T * (2 * Z.of_nat (length xs) * (2 * Z.of_nat deg + 1)) <=? 2 ^ S)%Z &&
  moments_loop S T odd (map (fun x => square_fix S (fix_dec S x)) xs) (map (fix_dec S) ws) 0 (Nat.div2 (deg + 1)).

Lemma step_vs S xs : forall ws j, length ws = length xs ->
  map (fun yv => Z.shiftr (snd yv * fst yv) S) (combine (map (fun x => square_fix S (fix_dec S x)) xs) (products S xs ws j))
  = products S xs ws (Datatypes.S j).
Proof.
  induction xs as [|x l IH]; intros [|w l'] j SM; try discriminate; [reflexivity|]. injection SM as SM.
  unfold products in *. cbn [map combine fst snd wpow_fix]. f_equal. apply IH. exact SM.
Qed.
Lemma loop_ok S T odd xs ws : length ws = length xs -> forall fuel j,
  moments_loop S T odd (map (fun x => square_fix S (fix_dec S x)) xs) (products S xs ws j) j fuel = true ->
  forall i, (j <= i < j + fuel)%nat -> moment_close S T (sum_fix odd (products S xs ws i)) i = true.
Proof.
  intros SM. induction fuel as [|fuel IH]; intros j H i J; [lia|]. cbn [moments_loop] in H. rewrite andb_true_iff in H. destruct H as [A B].
  destruct (Nat.eq_dec i j) as [->|NE]; [exact A|].
  rewrite step_vs in B by exact SM. exact (IH _ B i ltac:(lia)).
Qed.
Lemma products0 S xs : forall ws, length ws = length xs -> products S xs ws 0 = map (fix_dec S) ws.
Proof.
  induction xs as [|x l IH]; intros [|w l'] SM; try discriminate; [reflexivity|]. injection SM as SM.
  unfold products in *. cbn [map combine fst snd wpow_fix]. f_equal. apply IH. exact SM.
Qed.

Definition exact_moment (k : nat) : R := if Nat.even k then 2 / INR (k + 1) else 0.
Lemma moments_ok S T odd xs ws deg : (0 <= S)%Z -> (0 < T)%Z -> length ws = length xs ->
  (forall x, In x xs -> 0 <= Rlit x < 1) -> (forall w, In w ws -> 0 < Rlit w <= 1) ->
  (odd = true -> Rlit (hd 1%dec xs) = 0) ->
  moments_check S T odd xs ws deg = true ->
  forall k, (k < deg)%nat ->
    Rabs (node_sum odd (gl_nodes xs ws) (fun x => x ^ k) 1 0 - exact_moment k) <= / IZR T.
Proof.
  intros S0 T0 SM XR WR CE H k K. unfold moments_check in H. rewrite andb_true_iff in H. destruct H as [H1 H2]. apply Z.leb_le in H1.
  assert (TP : 0 < IZR T) by (apply IZR_lt; exact T0). assert (TI : 0 < / IZR T) by (apply Rinv_0_lt_compat; exact TP).
  unfold exact_moment. destruct (Nat.even k) eqn:E.
  - apply Nat.even_spec in E. destruct E as [j ->]. pose proof (sum_ok S odd xs ws j S0 SM XR WR) as SO. cbv zeta in SO.
    assert (MC : moment_close S T (sum_fix odd (products S xs ws j)) j = true).
    { apply (loop_ok S T odd xs ws SM (Nat.div2 (deg + 1)) 0); [rewrite products0 by exact SM; exact H2|].
      pose proof (Nat.div2_odd (deg + 1)). destruct (Nat.odd (deg + 1)); cbn [Nat.b2n] in *; lia. }
    unfold moment_close in MC. apply Z.leb_le in MC. set (M := sum_fix odd (products S xs ws j)) in *.
    pose proof (h_pos S S0) as HP. pose proof (one_h S S0) as OH. set (o := (2 ^ S)%Z) in *. set (hh := / IZR o) in *.
    set (NS := node_sum _ _ _ _ _) in *.
    assert (K1 : 0 < INR (2 * j + 1)) by (apply lt_0_INR; lia).
    assert (E1 : IZR (Z.of_nat (2 * j + 1)) = INR (2 * j + 1)) by (rewrite <- INR_IZR_INZ; reflexivity).
    assert (E2 : INR (2 * j) = 2 * INR j) by (rewrite mult_INR; cbn [INR]; ring).
    assert (P1 : 2 * INR (length xs) * ((1 + 4 * INR j) * hh) <= / IZR T / 2).
    { apply IZR_le in H1. rewrite !mult_IZR, plus_IZR, mult_IZR, <- !INR_IZR_INZ in H1.
      assert (KD : INR (2 * j) <= INR deg) by (apply le_INR; lia). pose proof (pos_INR j). pose proof (pos_INR (length xs)) as LP.
      apply Rmult_le_reg_l with (2 * IZR T); [lra|].
      replace (2 * IZR T * (/ IZR T / 2)) with (IZR o * hh) by (rewrite OH; field; lra).
      replace (2 * IZR T * (2 * INR (length xs) * ((1 + 4 * INR j) * hh))) with (2 * IZR T * (2 * INR (length xs) * (1 + 4 * INR j)) * hh) by ring.
      apply Rmult_le_compat_r; [lra|]. eapply Rle_trans; [|exact H1].
      apply Rmult_le_compat_l; [lra|]. apply Rmult_le_compat_l; [lra|]. lra. }
    assert (P2 : Rabs (IZR M * hh - 2 / INR (2 * j + 1)) <= / IZR T / 2).
    { apply IZR_le in MC. rewrite !mult_IZR, abs_IZR, minus_IZR, !mult_IZR, E1 in MC.
      replace (IZR M * hh - 2 / INR (2 * j + 1)) with ((INR (2 * j + 1) * IZR M - 2 * IZR o) * (hh / INR (2 * j + 1))).
      2:{ replace (2 / INR (2 * j + 1)) with (2 * (IZR o * hh) / INR (2 * j + 1)) by (rewrite OH; field; lra). field. lra. }
      rewrite Rabs_mult. rewrite (Rabs_pos_eq (hh / INR (2 * j + 1))).
      2:{ left. apply Rmult_lt_0_compat; [lra|apply Rinv_0_lt_compat; lra]. }
      set (A := Rabs _) in *. apply Rmult_le_reg_l with (2 * IZR T); [lra|].
      replace (2 * IZR T * (/ IZR T / 2)) with (INR (2 * j + 1) * IZR o * (hh / INR (2 * j + 1))).
      2:{ replace (INR (2 * j + 1) * IZR o * (hh / INR (2 * j + 1))) with (IZR o * hh) by (field; lra).
          rewrite OH. field. lra. }
      rewrite <- Rmult_assoc. apply Rmult_le_compat_r; [|exact MC].
      left. apply Rmult_lt_0_compat; [lra|apply Rinv_0_lt_compat; lra]. }
    replace (NS - 2 / INR (2 * j + 1)) with ((NS - IZR M * hh) + (IZR M * hh - 2 / INR (2 * j + 1))) by ring.
    eapply Rle_trans; [apply Rabs_triang|]. rewrite (Rabs_pos_eq (NS - IZR M * hh)) by lra. lra.
  - assert (O : Nat.odd k = true) by (rewrite <- Nat.negb_even, E; reflexivity).
    assert (Z0 : node_sum odd (gl_nodes xs ws) (fun x => x ^ k) 1 0 = 0).
    { unfold node_sum. destruct odd; [|apply pair_odd; exact O]. specialize (CE eq_refl).
      destruct xs as [|x l]; destruct ws as [|w l']; try discriminate; unfold gl_nodes; cbn [map combine]; [reflexivity|].
      cbn [hd] in CE. rewrite pair_odd by exact O. change (lit x : R) with (Rlit x). rewrite CE.
      replace (1 * 0 + 0) with 0 by ring. rewrite pow_i; [ring|]. destruct k; [discriminate|lia]. }
    rewrite Z0, Rminus_0_r, Rabs_R0. lra.
Qed.

(** ** All orders: exact for polynomials of degree 2n-1 up to the digits of the constants *)
Lemma gl_moments_checked :
  forallb (fun r => let '(n, xs, ws) := r in
    forallb (fun w => Qle_bool (dec_Q w) 1) ws &&
    moments_check 86 (10 ^ 20) (Nat.odd n) xs ws (2 * n)) gl_rules = true.
Proof. vm_compute. reflexivity. Qed.
Lemma gl_moments n xs ws : In (n, xs, ws) gl_rules -> forall k, (k < 2 * n)%nat ->
  Rabs (node_sum (Nat.odd n) (gl_nodes xs ws) (fun x => x ^ k) 1 0 - exact_moment k) <= / 10 ^ 20.
Proof.
  intros H. pose proof (rule_ok _ _ _ H) as G. pose proof gl_moments_checked as C. rewrite forallb_forall in C. specialize (C _ H).
  cbv beta iota in C. rewrite andb_true_iff in C. destruct C as [C1 C2]. rewrite forallb_forall in C1.
  intros k K. rewrite (pow_IZR 10 20). change (10 ^ Z.of_nat 20)%Z with (10 ^ 20)%Z.
  apply moments_ok with (S := 86%Z) (deg := (2 * n)%nat); try lia.
  - apply (rg_same _ _ _ G).
  - apply (rg_x _ _ _ G).
  - intros w Hw. split; [apply (rg_w _ _ _ G); exact Hw|]. specialize (C1 w Hw). apply Qle_bool_iff in C1. rewrite Rlit_Q.
    replace 1 with (Q2R 1) by (unfold Q2R; simpl; lra). apply Qle_Rle. exact C1.
  - apply (rg_centre _ _ _ G).
  - exact C2.
Qed.

(** ** Polynomials *)
Definition poly (c : list R) (x : R) : R := fold_right (fun a s => a + x * s) 0 c.
Definition size (c : list R) : R := fold_right (fun a s => Rabs a + s) 0 c.
Fixpoint mono (k : nat) (c : list R) (x : R) : R := match c with [] => 0 | a :: l => a * x ^ k + mono (S k) l x end.
Fixpoint anti (k : nat) (c : list R) (x : R) : R := match c with [] => 0 | a :: l => a * (x ^ (k + 1) / INR (k + 1)) + anti (S k) l x end.
Lemma poly_mono c x : forall k, mono k c x = x ^ k * poly c x.
Proof.
  induction c as [|a l IH]; intros k; cbn [mono poly fold_right]; [ring|]. rewrite IH. cbn [pow]. fold (poly l x). ring.
Qed.
Lemma anti_deriv c : forall k x, derivable_pt_lim (anti k c) x (mono k c x).
Proof.
  induction c as [|a l IH]; intros k x; cbn [anti mono].
  - apply (derivable_pt_lim_const 0).
  - apply (derivable_pt_lim_plus (fun x => a * (x ^ (k + 1) / INR (k + 1))) (anti (S k) l)); [|apply IH].
    assert (K1 : INR (k + 1) <> 0) by (apply not_0_INR; lia).
    replace (a * x ^ k) with (a / INR (k + 1) * (INR (k + 1) * x ^ k)) by (field; exact K1).
    pose proof (derivable_pt_lim_pow x (k + 1)) as D. replace (pred (k + 1)) with k in D by lia.
    pose proof (derivable_pt_lim_scal (fun y => y ^ (k + 1)) (a / INR (k + 1)) x _ D) as D2.
    unfold mult_real_fct in D2. eapply derivable_pt_lim_ext; [|exact D2]. intros y. cbn beta. field. exact K1.
Qed.
Lemma same_growth f F G a b : a <= b -> (forall x, a <= x <= b -> derivable_pt_lim F x (f x)) ->
  (forall x, a <= x <= b -> derivable_pt_lim G x (f x)) -> F b - F a = G b - G a.
Proof.
  intros L DF DG. destruct L as [L|<-]; [|ring].
  assert (D : forall x, a <= x <= b -> derivable_pt_lim (fun y => F y - G y) x (f x - f x)).
  { intros x X. apply derivable_pt_lim_minus; auto. }
  destruct (MVT_cor2 (fun y => F y - G y) (fun x => f x - f x) a b L D) as (c & E & _). lra.
Qed.
Lemma pow_m1 k : (-1) ^ k = if Nat.even k then 1 else -1.
Proof.
  destruct (Nat.even k) eqn:E.
  - replace (-1) with (- (1)) by ring. rewrite pow_opp_even by exact E. apply pow1.
  - replace (-1) with (- (1)) by ring. rewrite pow_opp_odd by (rewrite <- Nat.negb_even, E; reflexivity). rewrite pow1. ring.
Qed.
Lemma anti_span c : forall k, anti k c 1 - anti k c (-1) = fold_right (fun p s => fst p * exact_moment (snd p) + s) 0 (combine c (seq k (length c))).
Proof.
  induction c as [|a l IH]; intros k; cbn [anti length seq combine fold_right fst snd]; [ring|].
  rewrite <- IH. rewrite pow1, pow_m1. unfold exact_moment.
  assert (K1 : INR (k + 1) <> 0) by (apply not_0_INR; lia).
  rewrite Nat.add_1_r in *. rewrite Nat.even_succ, <- Nat.negb_even. destruct (Nat.even k); cbn [negb]; field; exact K1.
Qed.
Lemma poly_err odd nodes T deg : 0 <= T ->
  (forall k, (k < deg)%nat -> Rabs (node_sum odd nodes (fun x => x ^ k) 1 0 - exact_moment k) <= T) ->
  forall c k, (k + length c <= deg)%nat ->
  Rabs (node_sum odd nodes (mono k c) 1 0 - (anti k c 1 - anti k c (-1))) <= T * size c.
Proof.
  intros T0 M c. induction c as [|a l IH]; intros k K; cbn [length] in K.
  - cbn [anti size fold_right]. replace (node_sum odd nodes (mono k []) 1 0) with 0.
    + rewrite !Rminus_0_r, Rabs_R0. lra.
    + unfold node_sum.
      assert (P : forall l, pair_sum l (mono k []) 1 0 = 0)
        by (induction l as [|[x w] l IH]; cbn [pair_sum]; [reflexivity|]; rewrite IH; cbn [mono]; ring).
      destruct odd; [destruct nodes as [|[x w] l]; [reflexivity|]; rewrite P; cbn [mono]; ring|symmetry; apply P].
  - specialize (IH (S k) ltac:(lia)). specialize (M k ltac:(lia)).
    rewrite anti_span in *. cbn [length seq combine fold_right fst snd size].
    change (mono k (a :: l)) with (fun x => a * x ^ k + mono (S k) l x).
    assert (E : node_sum odd nodes (fun x => a * x ^ k + mono (S k) l x) 1 0 = a * node_sum odd nodes (fun x => x ^ k) 1 0 + 1 * node_sum odd nodes (mono (S k) l) 1 0).
    { rewrite <- node_lin. unfold node_sum.
      assert (P : forall nl, pair_sum nl (fun x => a * x ^ k + mono (S k) l x) 1 0 = pair_sum nl (fun x => a * x ^ k + 1 * mono (S k) l x) 1 0)
        by (induction nl as [|[x w] nl IHn]; cbn [pair_sum]; [reflexivity|]; rewrite IHn; ring).
      destruct odd; [destruct nodes as [|[x w] nl]; [reflexivity|]; rewrite P; ring|apply P]. }
    rewrite E. set (N1 := node_sum odd nodes (fun x => x ^ k) 1 0) in *. set (N2 := node_sum odd nodes (mono (S k) l) 1 0) in *.
    set (FR := fold_right _ _ _) in *. fold (size l).
    replace (a * N1 + 1 * N2 - (a * exact_moment k + FR)) with (a * (N1 - exact_moment k) + (N2 - FR)) by ring.
    eapply Rle_trans; [apply Rabs_triang|]. rewrite Rabs_mult.
    replace (T * (Rabs a + size l)) with (Rabs a * T + T * size l) by ring.
    apply Rplus_le_compat; [|exact IH]. apply Rmult_le_compat_l; [apply Rabs_pos|exact M].
Qed.
Lemma node_ext odd nodes f g p q p' q' : (forall x, In x (map fst nodes) -> f (p * x + q) = g (p' * x + q') /\ f (- p * x + q) = g (- p' * x + q')) ->
  node_sum odd nodes f p q = node_sum odd nodes g p' q'.
Proof.
  intros H.
  assert (P : forall l, (forall x, In x (map fst l) -> f (p * x + q) = g (p' * x + q') /\ f (- p * x + q) = g (- p' * x + q')) ->
    pair_sum l f p q = pair_sum l g p' q').
  { induction l as [|[x w] l IH]; intros K; cbn [pair_sum]; [reflexivity|].
    destruct (K x ltac:(now left)) as [A B]. rewrite A, B, IH; [reflexivity|]. intros y Hy. apply K. now right. }
  unfold node_sum. destruct odd; [|apply P; exact H]. destruct nodes as [|[x w] l]; [reflexivity|].
  destruct (H x ltac:(now left)) as [A _]. rewrite A, P; [reflexivity|]. intros y Hy. apply H. now right.
Qed.

(** exactness on any interval, for any set of nodes with good moments *)
Lemma quad_exact odd nodes T deg : 0 <= T ->
  (forall k, (k < deg)%nat -> Rabs (node_sum odd nodes (fun x => x ^ k) 1 0 - exact_moment k) <= T) ->
  forall f F a b c, a <= b -> (length c <= deg)%nat ->
  (forall t, f ((b - a) / 2 * t + (b + a) / 2) = poly c t) ->
  (forall x, a <= x <= b -> derivable_pt_lim F x (f x)) ->
  Rabs ((b - a) / 2 * node_sum odd nodes f ((b - a) / 2) ((b + a) / 2) - (F b - F a)) <= (b - a) / 2 * (T * size c).
Proof.
  intros T0 M f F a b c L LC FE DF.
  assert (E1 : node_sum odd nodes f ((b - a) / 2) ((b + a) / 2) = node_sum odd nodes (mono 0 c) 1 0).
  { apply node_ext. intros x _. rewrite FE. replace (- ((b - a) / 2) * x + (b + a) / 2) with ((b - a) / 2 * (- x) + (b + a) / 2) by ring.
    rewrite FE. rewrite !poly_mono. cbn [pow]. split; rewrite Rmult_1_l; f_equal; ring. }
  assert (E2 : F b - F a = (b - a) / 2 * (anti 0 c 1 - anti 0 c (-1))).
  { set (p := (b - a) / 2) in *. set (q := (b + a) / 2) in *.
    assert (GR : F (p * 1 + q) - F (p * (-1) + q) = (p * anti 0 c 1 - p * anti 0 c (-1))).
    { apply (same_growth (fun t => p * mono 0 c t) (fun t => F (p * t + q)) (fun t => p * anti 0 c t)); [lra| |].
      - intros t Ht. rewrite poly_mono. cbn [pow]. rewrite Rmult_1_l, <- FE.
        assert (R1 : a <= p * t + q <= b) by (unfold p, q; split; nra).
        rewrite (Rmult_comm p (f (p * t + q))).
        apply (derivable_pt_lim_comp (fun t => p * t + q) F); [|apply DF; exact R1].
        pose proof (derivable_pt_lim_plus (fun t => p * t) (fun _ => q) t (p * 1) 0
          (derivable_pt_lim_scal id p t 1 (derivable_pt_lim_id t)) (derivable_pt_lim_const q t)) as D.
        replace (p * 1 + 0) with p in D by ring. exact D.
      - intros t _. apply (derivable_pt_lim_scal (anti 0 c) p t). apply anti_deriv. }
    replace (p * 1 + q) with b in GR by (unfold p, q; field). replace (p * -1 + q) with a in GR by (unfold p, q; field).
    rewrite GR. ring. }
  rewrite E1, E2, <- Rmult_minus_distr_l, Rabs_mult, (Rabs_pos_eq ((b - a) / 2)) by lra.
  apply Rmult_le_compat_l; [lra|]. apply (poly_err odd nodes T deg T0 M). lia.
Qed.
