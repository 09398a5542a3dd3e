(** * C26: the Gauss-Legendre quadrature rules *)
From Coq Require Import ZArith QArith Reals Qreals List Bool Lra Lia.
From Verif Require Import Num NumR Structures Integrator DataQuadrature SpecData DataProofs QuadProofs.
Import ListNotations.
Local Open Scope R_scope.

(** the value of a rule; the integrand may be undefined at some points *)
Definition quad (r : nat * list dec * list dec) (f : R -> outcome R) (a b : R) : outcome R :=
  gl_integrate (fst (fst r)) (gl_nodes (snd (fst r)) (snd r)) f a b.

Definition tot (f : R -> outcome R) (x : R) : R := match f x with Ok v => v | UB _ => 0 end.
Definition used (nodes : list (R * R)) (p q : R) (x : R) : Prop :=
  exists z, In z nodes /\ (x = p * fst z + q \/ x = - p * fst z + q).

Lemma pairs_ext nodes f g p q : (forall x, used nodes p q x -> f x = g x) -> forall r,
  gl_pairs nodes f p q r = gl_pairs nodes g p q r.
Proof.
  induction nodes as [|[x w] l IH]; intros H r; cbn [gl_pairs]; [reflexivity|].
  assert (A : f (p * x + q) = g (p * x + q)) by (apply H; exists (x, w); split; [now left|now left]).
  assert (B : f (- p * x + q) = g (- p * x + q)) by (apply H; exists (x, w); split; [now left|now right]).
  numR. rewrite A, B. destruct (g (p * x + q)); cbn [bind]; [|reflexivity]. destruct (g (- p * x + q)); cbn [bind]; [|reflexivity].
  apply IH. intros y (z & Z1 & Z2). apply H. exists z. split; [now right|exact Z2].
Qed.
Lemma gl_ext n nodes f g a b : (forall x, used nodes ((b - a) / 2) ((b + a) / 2) x -> f x = g x) ->
  gl_integrate n nodes f a b = gl_integrate n nodes g a b.
Proof.
  intros H. unfold gl_integrate. numR. rewrite half. replace (1 / 2 * (b - a)) with ((b - a) / 2) by field.
  replace (1 / 2 * (b + a)) with ((b + a) / 2) by field. destruct (Nat.odd n).
  - destruct nodes as [|[x w] l]; [reflexivity|].
    rewrite (H ((b - a) / 2 * x + (b + a) / 2)) by (exists (x, w); split; [now left|now left]).
    destruct (g _); cbn [bind]; [|reflexivity]. rewrite (pairs_ext l f g); [reflexivity|].
    intros y (z & Z1 & Z2). apply H. exists z. split; [now right|exact Z2].
  - rewrite (pairs_ext nodes f g); [reflexivity|exact H].
Qed.
Lemma pairs_defined nodes f p q : forall r v, gl_pairs nodes f p q r = Ok v -> forall x, used nodes p q x -> f x = Ok (tot f x).
Proof.
  induction nodes as [|[y w] l IH]; intros r v H x (z & Z1 & Z2); [destruct Z1|]. cbn [gl_pairs] in H. revert H. numR. intros H.
  destruct (f (p * y + q)) eqn:A; cbn [bind] in H; [|discriminate].
  destruct (f (- p * y + q)) eqn:B; cbn [bind] in H; [|discriminate].
  destruct Z1 as [<-|Z1]; [|apply (IH _ _ H); exists z; auto]. cbn [fst] in Z2. unfold tot.
  destruct Z2 as [->| ->]; [rewrite A|rewrite B]; reflexivity.
Qed.
Lemma quad_defined n xs ws f a b v : In (n, xs, ws) gl_rules -> quad (n, xs, ws) f a b = Ok v ->
  forall x, used (gl_nodes xs ws) ((b - a) / 2) ((b + a) / 2) x -> f x = Ok (tot f x).
Proof.
  intros HR H x U. pose proof (rule_ok _ _ _ HR) as G. unfold quad in H. cbn [fst snd] in H. unfold gl_integrate in H. revert H. numR. rewrite half.
  replace (1 / 2 * (b - a)) with ((b - a) / 2) by field. replace (1 / 2 * (b + a)) with ((b + a) / 2) by field. intros H.
  destruct (Nat.odd n) eqn:O.
  - pose proof (rg_centre _ _ _ G O) as C. destruct G as [_ SM _ _ _ _]. destruct xs as [|x0 xs]; [discriminate|].
    destruct ws as [|w0 ws]; [discriminate|]. unfold gl_nodes in *. cbn [map combine hd] in *.
    destruct (f _) eqn:A in H; cbn [bind] in H; [|discriminate].
    destruct (gl_pairs _ _ _ _ _) eqn:B in H; cbn [bind] in H; [|discriminate].
    destruct U as (z & [<-|Z1] & Z2).
    + cbn [fst] in Z2. change (lit x0 : R) with (Rlit x0) in *. rewrite C in *.
      assert (E : x = (b - a) / 2 * 0 + (b + a) / 2) by (destruct Z2 as [->| ->]; lra). rewrite E. unfold tot. rewrite A. reflexivity.
    + apply (pairs_defined _ _ _ _ _ _ B). exists z. auto.
  - destruct (gl_pairs _ _ _ _ _) eqn:B in H; cbn [bind] in H; [|discriminate]. apply (pairs_defined _ _ _ _ _ _ B). exact U.
Qed.
Lemma quad_total n xs ws f a b : In (n, xs, ws) gl_rules ->
  (forall x, used (gl_nodes xs ws) ((b - a) / 2) ((b + a) / 2) x -> f x = Ok (tot f x)) ->
  quad (n, xs, ws) f a b = Ok ((b - a) / 2 * node_sum (Nat.odd n) (gl_nodes xs ws) (tot f) ((b - a) / 2) ((b + a) / 2)).
Proof.
  intros HR H. unfold quad. cbn [fst snd]. rewrite (gl_ext n _ f (fun x => Ok (tot f x)) a b H).
  apply gl_value. intros _. apply (nodes_ne n). apply rule_ok. exact HR.
Qed.
Lemma quad_node n xs ws f a b v : In (n, xs, ws) gl_rules -> quad (n, xs, ws) f a b = Ok v ->
  v = (b - a) / 2 * node_sum (Nat.odd n) (gl_nodes xs ws) (tot f) ((b - a) / 2) ((b + a) / 2).
Proof.
  intros HR H. pose proof (quad_total n xs ws f a b HR (quad_defined _ _ _ _ _ _ _ HR H)). congruence.
Qed.
Lemma used_inside n xs ws a b x : In (n, xs, ws) gl_rules -> a < b -> used (gl_nodes xs ws) ((b - a) / 2) ((b + a) / 2) x -> a < x < b.
Proof.
  intros HR L (z & Z1 & Z2). destruct (nodes_range _ _ _ (rule_ok _ _ _ HR) z Z1) as [X _].
  destruct (inside a b (fst z) L X). destruct Z2 as [->| ->]; assumption.
Qed.
Lemma used_swap nodes a b x : used nodes ((a - b) / 2) ((a + b) / 2) x <-> used nodes ((b - a) / 2) ((b + a) / 2) x.
Proof.
  split; intros (z & Z1 & Z2); exists z; (split; [exact Z1|]); destruct Z2 as [->| ->]; [right|left|right|left]; field.
Qed.

(** ** Linearity in the integrand *)
Theorem C26_linear r f g a b I J s t : In r gl_rules -> quad r f a b = Ok I -> quad r g a b = Ok J ->
  quad r (fun x => u <- f x ;; v <- g x ;; Ok (s * u + t * v)) a b = Ok (s * I + t * J).
Proof.
  destruct r as [[n xs] ws]. intros HR HI HJ.
  pose proof (quad_defined _ _ _ _ _ _ _ HR HI) as DI. pose proof (quad_defined _ _ _ _ _ _ _ HR HJ) as DJ.
  rewrite (quad_node _ _ _ _ _ _ _ HR HI), (quad_node _ _ _ _ _ _ _ HR HJ). rewrite quad_total; [|exact HR|].
  - f_equal. rewrite (node_ext _ _ _ (fun x => s * tot f x + t * tot g x) _ _ ((b - a) / 2) ((b + a) / 2)); [rewrite node_lin; ring|].
    intros x Hx. apply in_map_iff in Hx. destruct Hx as (z & <- & Hz). unfold tot at 1 4.
    rewrite !DI, !DJ by (exists z; auto). cbn [bind]. auto.
  - intros x U. unfold tot. rewrite (DI x U), (DJ x U). cbn [bind]. reflexivity.
Qed.
Print Assumptions C26_linear.

(** ** Larger integrands have larger values; positive integrands have positive values *)
Theorem C26_monotone r f g a b I J : In r gl_rules -> a <= b ->
  (forall x u v, a < x < b -> f x = Ok u -> g x = Ok v -> u <= v) ->
  quad r f a b = Ok I -> quad r g a b = Ok J -> I <= J.
Proof.
  destruct r as [[n xs] ws]. intros HR L H HI HJ. pose proof (rule_ok _ _ _ HR) as G.
  pose proof (quad_defined _ _ _ _ _ _ _ HR HI) as DI. pose proof (quad_defined _ _ _ _ _ _ _ HR HJ) as DJ.
  rewrite (quad_node _ _ _ _ _ _ _ HR HI), (quad_node _ _ _ _ _ _ _ HR HJ).
  destruct L as [L| <-]; [|replace ((a - a) / 2) with 0 by field; lra].
  apply Rmult_le_compat_l; [lra|].
  assert (K : forall z, In z (gl_nodes xs ws) -> 0 <= snd z /\ tot f ((b - a) / 2 * fst z + (b + a) / 2) <= tot g ((b - a) / 2 * fst z + (b + a) / 2)
     /\ tot f (- ((b - a) / 2) * fst z + (b + a) / 2) <= tot g (- ((b - a) / 2) * fst z + (b + a) / 2)).
  { intros z Hz. destruct (nodes_range _ _ _ G z Hz) as [X W]. split; [lra|].
    assert (U1 : used (gl_nodes xs ws) ((b - a) / 2) ((b + a) / 2) ((b - a) / 2 * fst z + (b + a) / 2)) by (exists z; auto).
    assert (U2 : used (gl_nodes xs ws) ((b - a) / 2) ((b + a) / 2) (- ((b - a) / 2) * fst z + (b + a) / 2)) by (exists z; auto).
    destruct (inside a b (fst z) L X) as [I1 I2].
    split; [apply (H _ _ _ I1 (DI _ U1) (DJ _ U1))|apply (H _ _ _ I2 (DI _ U2) (DJ _ U2))]. }
  unfold node_sum. destruct (Nat.odd n); [|apply pair_le; exact K].
  destruct (gl_nodes xs ws) as [|[x w] l]; [lra|]. destruct (K (x, w) (or_introl eq_refl)) as (W & A & _). cbn [fst snd] in W, A.
  apply Rplus_le_compat; [apply Rmult_le_compat_l; assumption|]. apply pair_le. intros z Hz. apply K. now right.
Qed.
Print Assumptions C26_monotone.

Theorem C26_positive r f a b I : In r gl_rules -> a < b ->
  (forall x u, a < x < b -> f x = Ok u -> 0 < u) -> quad r f a b = Ok I -> 0 < I.
Proof.
  destruct r as [[n xs] ws]. intros HR L H HI. pose proof (rule_ok _ _ _ HR) as G.
  pose proof (quad_defined _ _ _ _ _ _ _ HR HI) as DI. rewrite (quad_node _ _ _ _ _ _ _ HR HI).
  apply Rmult_lt_0_compat; [lra|].
  assert (K : forall z, In z (gl_nodes xs ws) -> 0 < snd z /\ 0 < tot f ((b - a) / 2 * fst z + (b + a) / 2)
     /\ 0 < tot f (- ((b - a) / 2) * fst z + (b + a) / 2)).
  { intros z Hz. destruct (nodes_range _ _ _ G z Hz) as [X W]. split; [exact W|].
    assert (U1 : used (gl_nodes xs ws) ((b - a) / 2) ((b + a) / 2) ((b - a) / 2 * fst z + (b + a) / 2)) by (exists z; auto).
    assert (U2 : used (gl_nodes xs ws) ((b - a) / 2) ((b + a) / 2) (- ((b - a) / 2) * fst z + (b + a) / 2)) by (exists z; auto).
    destruct (inside a b (fst z) L X) as [I1 I2].
    split; [apply (H _ _ I1 (DI _ U1))|apply (H _ _ I2 (DI _ U2))]. }
  pose proof (nodes_ne _ _ _ G) as NE.
  assert (P : forall l p q, (forall z, In z l -> 0 <= snd z /\ 0 <= tot f (p * fst z + q) /\ 0 <= tot f (- p * fst z + q)) -> 0 <= pair_sum l (tot f) p q).
  { induction l as [|[x w] l IH]; intros p q KK; cbn [pair_sum]; [lra|]. destruct (KK (x, w) (or_introl eq_refl)) as (A & B & C). cbn [fst snd] in *.
    apply Rplus_le_le_0_compat; [apply Rmult_le_pos; lra|]. apply IH. intros z Hz. apply KK. now right. }
  unfold node_sum. destruct (gl_nodes xs ws) as [|[x w] l]; [contradiction|].
  destruct (K (x, w) (or_introl eq_refl)) as (W & A & B). cbn [fst snd] in W, A, B.
  assert (T : 0 <= pair_sum l (tot f) ((b - a) / 2) ((b + a) / 2)).
  { apply P. intros z Hz. destruct (K z (or_intror Hz)) as (? & ? & ?). lra. }
  destruct (Nat.odd n); cbn [pair_sum]; (apply Rplus_lt_le_0_compat; [apply Rmult_lt_0_compat; lra|exact T]).
Qed.
Print Assumptions C26_positive.

(** ** Exchanging the limits changes the sign *)
Theorem C26_swap r f a b I : In r gl_rules -> quad r f a b = Ok I -> quad r f b a = Ok (- I).
Proof.
  destruct r as [[n xs] ws]. intros HR HI. pose proof (rule_ok _ _ _ HR) as G. pose proof (quad_defined _ _ _ _ _ _ _ HR HI) as DI.
  rewrite quad_total; [|exact HR|intros x U; apply DI; rewrite used_swap in U; exact U].
  rewrite (quad_node _ _ _ _ _ _ _ HR HI). f_equal. rewrite (Rplus_comm a b). replace ((a - b) / 2) with (- ((b - a) / 2)) by field.
  set (p := (b - a) / 2). set (q := (b + a) / 2).
  replace (node_sum (Nat.odd n) (gl_nodes xs ws) (tot f) (- p) q) with (node_sum (Nat.odd n) (gl_nodes xs ws) (tot f) p q); [ring|].
  unfold node_sum. destruct (Nat.odd n) eqn:O; [|symmetry; apply pair_swap].
  pose proof (rg_centre _ _ _ G O) as C. destruct xs as [|x0 xs]; [reflexivity|]. destruct ws as [|w0 ws]; [reflexivity|].
  unfold gl_nodes. cbn [map combine hd] in *. change (lit x0 : R) with (Rlit x0). rewrite C, pair_swap. f_equal. f_equal. f_equal. ring.
Qed.
Print Assumptions C26_swap.

(** ** Only values strictly inside the interval are used *)
Theorem C26_inside r f g a b : In r gl_rules -> a < b -> (forall x, a < x < b -> f x = g x) -> quad r f a b = quad r g a b.
Proof.
  destruct r as [[n xs] ws]. intros HR L H. apply gl_ext. intros x U. apply H. apply (used_inside n xs ws); assumption.
Qed.
Print Assumptions C26_inside.

(** ** Affine invariance: every interval is the interval [-1, 1] after a change of variable *)
Theorem C26_affine r f a b I : In r gl_rules ->
  quad r (fun t => f ((b - a) / 2 * t + (b + a) / 2)) (-1) 1 = Ok I -> quad r f a b = Ok ((b - a) / 2 * I).
Proof.
  destruct r as [[n xs] ws]. intros HR HI. pose proof (quad_defined _ _ _ _ _ _ _ HR HI) as DI.
  replace ((1 - -1) / 2) with 1 in DI by field. replace ((1 + -1) / 2) with 0 in DI by field.
  set (p := (b - a) / 2) in *. set (q := (b + a) / 2) in *.
  rewrite quad_total; [|exact HR|].
  - rewrite (quad_node _ _ _ _ _ _ _ HR HI). fold p q. f_equal. f_equal.
    replace ((1 - -1) / 2) with 1 by field. replace ((1 + -1) / 2) with 0 by field. rewrite Rmult_1_l.
    apply node_ext. intros x _. unfold tot. replace (p * (1 * x + 0) + q) with (p * x + q) by ring.
    replace (p * (- (1) * x + 0) + q) with (- p * x + q) by ring. auto.
  - fold p q. intros x (z & Z1 & Z2).
    destruct Z2 as [->| ->].
    + specialize (DI (fst z) ltac:(exists z; split; [exact Z1|left; ring])). cbn beta in DI. unfold tot in *. exact DI.
    + specialize (DI (- fst z) ltac:(exists z; split; [exact Z1|right; ring])). cbn beta in DI. unfold tot in *.
      replace (- p * fst z + q) with (p * - fst z + q) by ring. exact DI.
Qed.
Print Assumptions C26_affine.

(** ** Polynomials with at most 2n coefficients are integrated exactly, up to the 25 digits of
    the constants.  [poly c] is the polynomial in the variable that runs over [-1, 1]. *)
Theorem C26_exact n xs ws f F a b c : In (n, xs, ws) gl_rules -> a <= b -> (length c <= 2 * n)%nat ->
  (forall t, f ((b - a) / 2 * t + (b + a) / 2) = poly c t) ->
  (forall x, a <= x <= b -> derivable_pt_lim F x (f x)) ->
  exists I, quad (n, xs, ws) (fun x => Ok (f x)) a b = Ok I /\
    Rabs (I - (F b - F a)) <= (b - a) / 2 * (/ 10 ^ 20 * size c).
Proof.
  intros HR L LC FE DF. eexists. split; [unfold quad; cbn [fst snd]; apply gl_value; intros _; apply (nodes_ne n); apply rule_ok; exact HR|].
  apply (quad_exact (Nat.odd n) (gl_nodes xs ws) (/ 10 ^ 20) (2 * n)); try assumption.
  - left. apply Rinv_0_lt_compat. apply pow_lt. lra.
  - apply gl_moments. exact HR.
Qed.
Print Assumptions C26_exact.

(** the library's [integrate] is the rule of order 8 *)
Theorem C26_library : In (8%nat, GL8_x, GL8_w) gl_rules /\ forall f a b, integrate (F := R) f a b = quad (8%nat, GL8_x, GL8_w) f a b.
Proof. split; [cbn [gl_rules In]; tauto|reflexivity]. Qed.
Print Assumptions C26_library.

(** ** A concrete case: x^2 over [0, 3] with the integrator of the library *)
Example C26_case : exists I, integrate (F := R) (fun x => Ok (x ^ 2)) 0 3 = Ok I /\ Rabs (I - 9) <= 14 / 10 ^ 20.
Proof.
  destruct (C26_exact 8 GL8_x GL8_w (fun x => x ^ 2) (fun x => x ^ 3 / 3) 0 3 [9/4; 9/2; 9/4]) as (I & E & B).
  - apply C26_library.
  - lra.
  - cbn [length]. lia.
  - intros t. unfold poly. cbn [fold_right]. field.
  - intros x _. pose proof (derivable_pt_lim_scal (fun y => y ^ 3) (/ 3) x _ (derivable_pt_lim_pow x 3)) as D.
    unfold mult_real_fct in D. cbn [pred] in D. replace (x ^ 2) with (/ 3 * (INR 3 * x ^ 2)) by (cbn [INR]; field).
    eapply derivable_pt_lim_ext; [|exact D]. intros y. cbn beta. unfold Rdiv. ring.
  - exists I. split; [exact E|].
    replace (3 ^ 3 / 3 - 0 ^ 3 / 3) with 9 in B by field. eapply Rle_trans; [exact B|].
    unfold size. cbn [fold_right]. rewrite !Rabs_pos_eq by lra.
    replace ((3 - 0) / 2 * (/ 10 ^ 20 * (9 / 4 + (9 / 2 + (9 / 4 + 0))))) with ((27 / 2) / 10 ^ 20) by (field; apply pow_nonzero; lra).
    apply Rmult_le_compat_r; [left; apply Rinv_0_lt_compat; apply pow_lt; lra|lra].
Qed.
