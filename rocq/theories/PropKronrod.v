(** * C27: the adaptive Gauss-Kronrod integrator *)
From Coq Require Import ZArith QArith Reals Qreals List Bool Lra Lia.
From Verif Require Import Num NumR Structures Integrator DataQuadrature SpecData DataProofs QuadProofs PropQuad.
Import ListNotations.
Local Open Scope R_scope.

(** ** The adaptive scheme: a partition of the interval *)
(** consecutive pieces from a to b *)
Inductive chain : R -> R -> list (R * R) -> Prop :=
| chain_one a b : chain a b [(a, b)]
| chain_cons a m b l : chain m b l -> chain a b ((a, m) :: l).
Definition total_of (rule : R -> R -> outcome (R * R)) (l : list (R * R)) : R :=
  fold_right (fun ab s => match rule (fst ab) (snd ab) with Ok r => fst r | UB _ => 0 end + s) 0 l.
Definition all_defined (rule : R -> R -> outcome (R * R)) (l : list (R * R)) : Prop :=
  forall ab, In ab l -> exists r, rule (fst ab) (snd ab) = Ok r.
Lemma chain_app a m b l l' : chain a m l -> chain m b l' -> chain a b (l ++ l').
Proof. intros H. revert b l'. induction H; intros c l' H'; cbn [app]; [now constructor|]. constructor. now apply IHchain. Qed.
Lemma total_app rule l l' : total_of rule (l ++ l') = total_of rule l + total_of rule l'.
Proof. induction l as [|x l IH]; cbn [app total_of fold_right]; [unfold total_of; ring|]. fold (total_of rule (l ++ l')) (total_of rule l). rewrite IH. ring. Qed.

(** the pieces all have width (b - a) / 2^k *)
Definition dyadic (a b : R) (n : nat) (ab : R * R) : Prop :=
  exists k, (k <= n)%nat /\ snd ab - fst ab = (b - a) / 2 ^ k.

Theorem C27_partition rule : forall level a b eps rprec v, gk_adaptive rule level a b eps rprec = Ok v ->
  exists l, chain a b l /\ all_defined rule l /\ v = total_of rule l /\ (length l <= 2 ^ level)%nat /\
    (forall ab, In ab l -> dyadic a b level ab).
Proof.
  induction level as [|level IH]; intros a b eps rprec v H; cbn [gk_adaptive] in H.
  - destruct (rule a b) as [r|] eqn:E; cbn [bind] in H; [|discriminate].
    assert (V : v = fst r).
    { destruct (_ || _) in H; [congruence|]. destruct (_ || _) in H; congruence. }
    subst v. exists [(a, b)]. split; [constructor|]. split; [intros ab [<-|[]]; eauto|]. split.
    + unfold total_of. cbn [fold_right fst snd]. rewrite E. ring.
    + split; [cbn; lia|]. intros ab [<-|[]]. exists 0%nat. cbn [fst snd pow]. split; [lia|field].
  - destruct (rule a b) as [r|] eqn:E; cbn [bind] in H; [|discriminate].
    assert (LEAF : v = fst r -> exists l, chain a b l /\ all_defined rule l /\ v = total_of rule l /\ (length l <= 2 ^ S level)%nat /\
      (forall ab, In ab l -> dyadic a b (S level) ab)).
    { intros ->. exists [(a, b)]. split; [constructor|]. split; [intros ab [<-|[]]; eauto|]. split.
      + unfold total_of. cbn [fold_right fst snd]. rewrite E. ring.
      + split; [cbn [length]; pose proof (Nat.pow_nonzero 2 (S level)); lia|]. intros ab [<-|[]]. exists 0%nat. cbn [fst snd pow]. split; [lia|field]. }
    destruct (_ || _) in H; [apply LEAF; congruence|]. destruct (_ || _) in H; [apply LEAF; congruence|].
    destruct (_ <? _)%num in H; [|apply LEAF; congruence].
    destruct (gk_adaptive rule level a _ _ _) as [v1|] eqn:E1 in H; cbn [bind] in H; [|discriminate].
    destruct (gk_adaptive rule level _ b _ _) as [v2|] eqn:E2 in H; cbn [bind] in H; [|discriminate].
    assert (V : v = v1 + v2) by (revert H; numR; intros H; congruence). clear H LEAF.
    assert (M : forall m, m = (lit 0.5 * (a + b))%num -> m = (a + b) / 2) by (intros m ->; numR; rewrite half; field).
    specialize (M _ eq_refl).
    apply IH in E1, E2. destruct E1 as (l1 & C1 & D1 & T1 & L1 & Y1). destruct E2 as (l2 & C2 & D2 & T2 & L2 & Y2).
    exists (l1 ++ l2). split; [exact (chain_app _ _ _ _ _ C1 C2)|]. split.
    { intros ab Hin. apply in_app_or in Hin. destruct Hin; [apply D1|apply D2]; assumption. }
    split; [rewrite total_app; congruence|]. split; [rewrite app_length; cbn [Nat.pow]; lia|].
    intros ab Hin. apply in_app_or in Hin. rewrite M in Y1, Y2.
    destruct Hin as [Hin|Hin]; [destruct (Y1 _ Hin) as (k & K & W)|destruct (Y2 _ Hin) as (k & K & W)]; exists (S k);
      (split; [lia|]); rewrite W; cbn [pow]; field; apply pow_nonzero; lra.
Qed.
Print Assumptions C27_partition.

(** *** The number of rule applications *)
(** the adaptive scheme again, returning also how often it applied the rule *)
Fixpoint counted (rule : R -> R -> outcome (R * R)) (level : nat) (a b eps rprec : R) : outcome (R * Z) :=
  (r <- rule a b ;;
   let result := fst r in
   if (fabs result <? lit 10 * DBL_EPSILON) || (b - a <? lit 10 * DBL_EPSILON) then Ok (result, 1%Z)
   else
     let aeps := fmax (rprec * fabs result) eps in
     if (aeps <? lit 10 * DBL_EPSILON) || (fabs result <? aeps) then Ok (result, 1%Z)
     else
       match level with
       | O => Ok (result, 1%Z)
       | S level' =>
           if aeps <? snd r then
             let mid := lit 0.5 * (a + b) in
             r1 <- counted rule level' a mid (lit 0.707 * aeps)%num (lit 0) ;;
             r2 <- counted rule level' mid b (lit 0.707 * aeps)%num (lit 0) ;;
             Ok (fst r1 + fst r2, (1 + snd r1 + snd r2)%Z)
           else Ok (result, 1%Z)
       end)%num.

Theorem C27_applications rule level a b eps rprec :
  omap fst (counted rule level a b eps rprec) = gk_adaptive rule level a b eps rprec /\
  forall v n, counted rule level a b eps rprec = Ok (v, n) -> (1 <= n <= 2 ^ (Z.of_nat level + 1) - 1)%Z.
Proof.
  revert a b eps rprec. induction level as [|level IH]; intros a b eps rprec; cbn [counted gk_adaptive].
  - destruct (rule a b) as [r|]; cbn [bind]; [|split; [reflexivity|discriminate]].
    destruct (_ || _); [split; [reflexivity|intros v n H; injection H as <- <-; cbn; lia]|].
    destruct (_ || _); (split; [reflexivity|intros v n H; injection H as <- <-; cbn; lia]).
  - assert (P2 : (2 ^ (Z.of_nat (S level) + 1) = 2 * 2 ^ (Z.of_nat level + 1))%Z)
      by (rewrite <- Z.pow_succ_r by lia; f_equal; lia).
    assert (P1 : (2 <= 2 ^ (Z.of_nat level + 1))%Z).
    { rewrite Z.pow_add_r by lia. pose proof (Z.pow_pos_nonneg 2 (Z.of_nat level) ltac:(lia) ltac:(lia)). lia. }
    destruct (rule a b) as [r|]; cbn [bind]; [|split; [reflexivity|discriminate]].
    destruct (_ || _); [split; [reflexivity|intros v n H; injection H as <- <-; lia]|].
    destruct (_ || _); [split; [reflexivity|intros v n H; injection H as <- <-; lia]|].
    destruct (_ <? _)%num; [|split; [reflexivity|intros v n H; injection H as <- <-; lia]].
    match goal with |- context [counted rule level a ?m ?e ?z] => destruct (IH a m e z) as [A1 B1] end.
    match goal with |- context [counted rule level ?m b ?e ?z] => destruct (IH m b e z) as [A2 B2] end.
    rewrite <- A1, <- A2.
    destruct (counted rule level a _ _ _) as [[v1 n1]|]; cbn [bind omap fst snd]; [|split; [reflexivity|discriminate]].
    destruct (counted rule level _ b _ _) as [[v2 n2]|]; cbn [bind omap fst snd]; [|split; [reflexivity|discriminate]].
    split; [reflexivity|]. intros v n H. specialize (B1 _ _ eq_refl). specialize (B2 _ _ eq_refl).
    assert (N : n = (1 + n1 + n2)%Z) by congruence. lia.
Qed.
Print Assumptions C27_applications.

(** as called by the library: at most 2^50 - 1 applications and always a result *)
Corollary C27_terminates rule a b eps rprec : (forall x y, exists r, rule x y = Ok r) ->
  exists v n, counted rule 49 a b eps rprec = Ok (v, n) /\ gk_adaptive rule 49 a b eps rprec = Ok v /\ (n <= 2 ^ 50 - 1)%Z.
Proof.
  intros T. assert (D : forall level a b eps rprec, exists vn, counted rule level a b eps rprec = Ok vn).
  { induction level as [|level IH]; intros a' b' e' r'; cbn [counted]; destruct (T a' b') as [r ->]; cbn [bind].
    - destruct (_ || _); [eauto|]. destruct (_ || _); eauto.
    - destruct (_ || _); [eauto|]. destruct (_ || _); [eauto|]. destruct (_ <? _)%num; [|eauto].
      match goal with |- context [counted rule level a' ?m ?e ?z] => destruct (IH a' m e z) as [v1 ->] end.
      match goal with |- context [counted rule level ?m b' ?e ?z] => destruct (IH m b' e z) as [v2 ->] end.
      cbn [bind]. eauto. }
  destruct (D 49%nat a b eps rprec) as [[v n] E]. exists v, n. destruct (C27_applications rule 49 a b eps rprec) as [A B].
  split; [exact E|]. split; [rewrite <- A, E; reflexivity|]. apply B in E. change (Z.of_nat 49 + 1)%Z with 50%Z in E. lia.
Qed.
Print Assumptions C27_terminates.

(** ** The rule itself *)
Definition gk_rules : list (nat * list dec * list dec * list dec) :=
  [(7, GK7_x, GK7_w, GK7_wg); (15, GK15_x, GK15_w, GK15_wg); (21, GK21_x, GK21_w, GK21_wg);
   (31, GK31_x, GK31_w, GK31_wg); (61, GK61_x, GK61_w, GK61_wg)]%nat.
Definition gk_of (r : nat * list dec * list dec * list dec) : gk_data R :=
  let '(n, xs, ws, wgs) := r in mkGK n (map lit xs) (map lit ws) (map lit wgs).

(** the nodes of the embedded Gauss rule: every second node of the Kronrod rule, from the centre
    when the Gauss rule has an odd number of points (m = (n-1)/2) and from the next one otherwise *)
Fixpoint every_second {A} (l : list A) : list A :=
  match l with [] => [] | [x] => [x] | x :: _ :: l' => x :: every_second l' end.
Definition gauss_xs (n : nat) (xs : list dec) : list dec :=
  if Nat.odd (Nat.div2 n) then every_second xs else every_second (tl xs).

Definition gk_check (r : nat * list dec * list dec * list dec) : bool :=
  let '(n, xs, ws, wgs) := r in
  Nat.odd n && Nat.eqb (length xs) (Nat.div2 n + 1) && Nat.eqb (length ws) (length xs) &&
  Nat.eqb (length wgs) (length (gauss_xs n xs)) && negb (Nat.eqb (Nat.div2 n) 0) &&
  (dec_mant (hd 1%dec xs) =? 0)%Z &&
  forallb (fun x => (0 <=? dec_mant x)%Z && negb (Qle_bool 1 (dec_Q x))) xs &&
  forallb (fun w => (0 <? dec_mant w)%Z && Qle_bool (dec_Q w) 1) ws &&
  forallb (fun w => (0 <? dec_mant w)%Z && Qle_bool (dec_Q w) 1) wgs.
Lemma gk_checked : forallb gk_check gk_rules = true. Proof. vm_compute. reflexivity. Qed.
(** the five integrators of the library are these rules, and the order counts the points *)
Theorem C27_orders d : In d [gk7 (F:=R); gk15; gk21; gk31; gk61] ->
  (exists r, In r gk_rules /\ d = gk_of r) /\ gk_order d = (2 * length (gk_x d) - 1)%nat /\ length (gk_w d) = length (gk_x d).
Proof.
  intros D. assert (Q : In d (map gk_of gk_rules)) by exact D. apply in_map_iff in Q. destruct Q as (r & E & I1). subst d.
  split; [exists r; split; [exact I1|reflexivity]|]. pose proof gk_checked as C. rewrite forallb_forall in C. specialize (C r I1). clear - C.
  destruct r as [[[n xs] ws] wgs]. unfold gk_check in C. apply andb_prop in C. destruct C as [C _]. apply andb_prop in C. destruct C as [C _]. apply andb_prop in C. destruct C as [C _].
  apply andb_prop in C. destruct C as [C _]. apply andb_prop in C. destruct C as [C _]. apply andb_prop in C. destruct C as [C _]. apply andb_prop in C. destruct C as [C C3]. apply andb_prop in C. destruct C as [C1 C2].
  cbn [gk_of gk_order gk_x gk_w]. rewrite !map_length. apply Nat.eqb_eq in C2, C3. split; [|exact C3]. rewrite C2.
  apply Nat.odd_spec in C1. destruct C1 as [m ->]. replace (2 * m + 1)%nat with (S (2 * m)) by lia. rewrite Nat.div2_succ_double. lia.
Qed.
Print Assumptions C27_orders.

Lemma kn nodes f p q : node_sum true nodes f p q = match nodes with [] => 0 | (x, w) :: l => w * f (p * x + q) + pair_sum l f p q end.
Proof. reflexivity. Qed.

Lemma aget_nat {A} (l : list A) (i : nat) (e : A) : (i < length l)%nat -> aget l (Z.of_nat i) = Ok (nth i l e).
Proof. intros H. apply aget_ok. rewrite Nat2Z.id. split; [lia|]. now apply nth_error_nth'. Qed.

(** the two loops, as sums over indices *)
Definition isum (l : list nat) (t : nat -> R) : R := fold_right (fun i s => t i + s) 0 l.
Lemma isum_ext l t u : (forall i, In i l -> t i = u i) -> isum l t = isum l u.
Proof. induction l as [|i l IH]; intros H; cbn [isum fold_right]; [reflexivity|]. rewrite (H i (or_introl eq_refl)). f_equal. apply IH. intros j Hj. apply H. now right. Qed.

Section Rule.
  Variable d : gk_data R.
  Variable f : R -> R.
  Variable p q : R.
  Let X i := nth i (gk_x d) 0. Let W i := nth i (gk_w d) 0. Let G i := nth i (gk_wg d) 0.
  Let both i := f (p * X i + q) + f (- p * X i + q).

  Lemma loop1 l : (forall i, In i l -> (i < length (gk_x d))%nat /\ (i < length (gk_w d))%nat /\ (Nat.div2 i < length (gk_wg d))%nat) -> forall a b,
    ofold (fun acc i =>
             x <- aget (gk_x d) (Z.of_nat i) ;;
             w <- aget (gk_w d) (Z.of_nat i) ;;
             wg <- aget (gk_wg d) (Z.of_nat (Nat.div2 i)) ;;
             v1 <- (fun x => Ok (f x)) (p * x + q)%num ;;
             v2 <- (fun x => Ok (f x)) (- p * x + q)%num ;;
             let res := (fst acc + w * v1)%num in
             let gres := (snd acc + wg * v1)%num in
             Ok ((res + w * v2)%num, (gres + wg * v2)%num)) l (a, b)
    = Ok (a + isum l (fun i => W i * both i), b + isum l (fun i => G (Nat.div2 i) * both i)).
  Proof.
    induction l as [|i l IH]; intros H a b; cbn [ofold isum fold_right]; [do 2 f_equal; ring|].
    destruct (H i (or_introl eq_refl)) as (H1 & H2 & H3).
    rewrite (aget_nat (gk_x d) i 0 H1), (aget_nat (gk_w d) i 0 H2), (aget_nat (gk_wg d) (Nat.div2 i) 0 H3). cbn [bind].
    rewrite IH by (intros j Hj; apply H; now right). fold (isum l (fun i => W i * both i)) (isum l (fun i => G (Nat.div2 i) * both i)).
    cbn [fst snd]. unfold both, X, W, G. numR. do 2 f_equal; ring.
  Qed.
  Lemma loop2 l : (forall i, In i l -> (i < length (gk_x d))%nat /\ (i < length (gk_w d))%nat) -> forall a,
    ofold (fun acc i =>
             x <- aget (gk_x d) (Z.of_nat i) ;;
             w <- aget (gk_w d) (Z.of_nat i) ;;
             v1 <- (fun x => Ok (f x)) (p * x + q)%num ;;
             v2 <- (fun x => Ok (f x)) (- p * x + q)%num ;;
             Ok (acc + w * (v1 + v2))%num) l a
    = Ok (a + isum l (fun i => W i * both i)).
  Proof.
    induction l as [|i l IH]; intros H a; cbn [ofold isum fold_right]; [f_equal; ring|].
    destruct (H i (or_introl eq_refl)) as (H1 & H2).
    rewrite (aget_nat (gk_x d) i 0 H1), (aget_nat (gk_w d) i 0 H2). cbn [bind].
    rewrite IH by (intros j Hj; apply H; now right). fold (isum l (fun i => W i * both i)).
    unfold both, X, W. numR. f_equal; ring.
  Qed.
  Lemma rule_value : (0 < length (gk_x d))%nat -> (0 < length (gk_w d))%nat -> (0 < length (gk_wg d))%nat ->
    (forall i, In i (strided 1 (xsize d)) \/ In i (strided 2 (xsize d)) -> (i < length (gk_x d))%nat /\ (i < length (gk_w d))%nat) ->
    (forall i, In i (strided (if oddgauss d then 2 else 1) (xsize d)) -> (Nat.div2 i < length (gk_wg d))%nat) ->
    forall a b, p = (b - a) / 2 -> q = (b + a) / 2 ->
    let K := W 0%nat * f (p * X 0%nat + q) + isum (strided 1 (xsize d)) (fun i => W i * both i) + isum (strided 2 (xsize d)) (fun i => W i * both i) in
    let GS := (if oddgauss d then G 0%nat * f (p * X 0%nat + q) else 0) +
       isum (strided (if oddgauss d then 2 else 1) (xsize d)) (fun i => G (Nat.div2 i) * both i) in
    gk_nonadaptive d (fun x => Ok (f x)) a b = Ok (p * K, p * Rmax (Rabs (GS - K)) (/ 4503599627370496)).
  Proof.
    intros X0 W0 G0 HI HG a b EP EQ. cbv zeta. unfold gk_nonadaptive.
    assert (E1 : (lit 0.5 * (b - a))%num = p) by (numR; rewrite half, EP; field).
    assert (E2 : (lit 0.5 * (b + a))%num = q) by (numR; rewrite half, EQ; field).
    rewrite E1, E2. rewrite (aget_nat (gk_x d) 0 0 X0 : aget (gk_x d) 0 = _), (aget_nat (gk_w d) 0 0 W0 : aget (gk_w d) 0 = _), (aget_nat (gk_wg d) 0 0 G0 : aget (gk_wg d) 0 = _). cbn [bind].
    rewrite loop1.
    2:{ intros i Hi. destruct (HI i) as [A B]; [destruct (oddgauss d); auto|]. split; [exact A|split; [exact B|apply HG; exact Hi]]. }
    cbn [bind fst snd]. rewrite loop2 by (intros i Hi; apply HI; destruct (oddgauss d); auto). cbn [bind].
    assert (M : forall x y, fmax x y = Rmax x y).
    { intros x y. unfold fmax. numR. destruct (Rltb_spec x y); unfold Rmax; destruct (Rle_dec x y); lra. }
    rewrite M. unfold DBL_EPSILON.
    assert (DE : (lit 1 / lit 4503599627370496 : R)%num = / 4503599627370496) by (numR; dec_norm; lra). rewrite DE. clear DE M.
    unfold W, X, G. numR. rewrite zero.
    destruct (oddgauss d);
    match goal with |- Ok (_ * ?K, _ * Rmax (Rabs (?G - ?K)) _) = Ok (_ * ?K', _ * Rmax (Rabs (?G' - ?K')) _) =>
      replace K with K' by ring; reflexivity end.
  Qed.
End Rule.

Lemma isum_filter P t l : isum (filter P l) t + isum (filter (fun k => negb (P k)) l) t = isum l t.
Proof.
  induction l as [|i l IH]; cbn [filter isum fold_right]; [unfold isum; cbn [fold_right]; ring|].
  fold (isum l t). rewrite <- IH. destruct (P i); cbn [negb isum fold_right];
  fold (isum (filter P l) t) (isum (filter (fun k => negb (P k)) l) t); ring.
Qed.
Lemma isum_map g l t : isum (map g l) t = isum l (fun i => t (g i)).
Proof. induction l as [|i l IH]; cbn [map isum fold_right]; [reflexivity|]. f_equal. exact IH. Qed.
Lemma isum_seq_S a n t : isum (seq (S a) n) t = isum (seq a n) (fun i => t (S i)).
Proof. rewrite <- seq_shift, isum_map. reflexivity. Qed.
Lemma pair_isum f p q : forall xs ws : list R, length ws = length xs ->
  pair_sum (combine xs ws) f p q = isum (seq 0 (length xs)) (fun i => nth i ws 0 * (f (p * nth i xs 0 + q) + f (- p * nth i xs 0 + q))).
Proof.
  induction xs as [|x xs IH]; intros [|w ws] H; try discriminate; [reflexivity|].
  cbn [combine pair_sum length seq isum fold_right nth]. injection H as H. rewrite (IH ws H).
  change (fold_right (fun i s => ?u + s) 0 ?l) with (isum l (fun i => u)).
  f_equal. rewrite <- isum_seq_S with (t := fun i => nth i (w :: ws) 0 * (f (p * nth i (x :: xs) 0 + q) + f (- p * nth i (x :: xs) 0 + q))). reflexivity.
Qed.
Lemma second_nth {A} (e : A) l : forall n j, (length l <= n)%nat -> (j < length (every_second l))%nat -> nth j (every_second l) e = nth (2 * j) l e.
Proof.
  intros n. revert l. induction n as [|n IH]; intros l j L; [destruct l; cbn in *; lia|].
  destruct l as [|x [|y l]]; cbn [every_second].
  - cbn. lia.
  - destruct j as [|j]; cbn; [reflexivity|lia].
  - destruct j as [|j]; [reflexivity|]. cbn [length nth]. intros H. rewrite IH by (cbn in *; lia).
    replace (2 * S j)%nat with (S (S (2 * j))) by lia. reflexivity.
Qed.
Lemma second_map {A B} (g : A -> B) l : forall n, (length l <= n)%nat -> map g (every_second l) = every_second (map g l).
Proof.
  intros n. revert l. induction n as [|n IH]; intros l L; [destruct l; [reflexivity|cbn in L; lia]|].
  destruct l as [|x [|y l]]; cbn [every_second map]; [reflexivity|reflexivity|]. f_equal. apply IH. cbn in L. lia.
Qed.

Theorem C27_rule n xs ws wgs f a b : In (n, xs, ws, wgs) gk_rules ->
  let p := (b - a) / 2 in let q := (b + a) / 2 in
  let K := node_sum true (gl_nodes xs ws) f p q in
  let G := node_sum (Nat.odd (Nat.div2 n)) (gl_nodes (gauss_xs n xs) wgs) f p q in
  gk_nonadaptive (gk_of (n, xs, ws, wgs)) (fun x => Ok (f x)) a b = Ok (p * K, p * Rmax (Rabs (G - K)) (/ 4503599627370496)).
Proof.
  intros HR. cbv zeta.
  pose proof gk_checked as C. rewrite forallb_forall in C. specialize (C _ HR). unfold gk_check in C.
  rewrite !andb_true_iff in C. destruct C as ((((((((C1 & C2) & C3) & C4) & C5) & C6) & _) & _) & _).
  apply Nat.eqb_eq in C2, C3, C4.
  assert (NS : In n [7; 15; 21; 31; 61]%nat).
  { cbn [gk_rules In] in HR. cbn [In]. repeat (destruct HR as [HR|HR]; [injection HR as <- _ _ _; tauto|]). destruct HR. }
  assert (S12 : strided 2 (Nat.div2 n + 1) = filter (fun k => negb (Nat.eqb (Nat.modulo (k - 1) 2) 0)) (seq 1 (Nat.div2 n))).
  { cbn [In] in NS. repeat (destruct NS as [<-|NS]; [reflexivity|]). destruct NS. }
  assert (S1 : strided 1 (Nat.div2 n + 1) = filter (fun k => Nat.eqb (Nat.modulo (k - 1) 2) 0) (seq 1 (Nat.div2 n))).
  { unfold strided. do 2 f_equal. lia. }
  assert (OG : oddgauss (gk_of (n, xs, ws, wgs)) = Nat.odd (Nat.div2 n)).
  { cbn [gk_of]. unfold oddgauss. cbn [gk_order]. cbn [In] in NS. repeat (destruct NS as [<-|NS]; [reflexivity|]). destruct NS. }
  assert (XS : xsize (gk_of (n, xs, ws, wgs)) = (Nat.div2 n + 1)%nat) by reflexivity.
  assert (GI : strided (if Nat.odd (Nat.div2 n) then 2 else 1) (Nat.div2 n + 1) =
     if Nat.odd (Nat.div2 n) then map (fun j => 2 * S j)%nat (seq 0 (length wgs - 1)) else map (fun j => 2 * j + 1)%nat (seq 0 (length wgs))).
  { cbn [gk_rules In] in HR. repeat (destruct HR as [HR|HR]; [injection HR as <- <- <- <-; reflexivity|]). destruct HR. }
  assert (WG : wgs <> []).
  { cbn [gk_rules In] in HR. repeat (destruct HR as [HR|HR]; [injection HR as <- <- <- <-; discriminate|]). destruct HR. }
  assert (CENTRE : Rlit (hd 1%dec xs) = 0) by (apply Rlit_0; apply Z.eqb_eq; exact C6).
  set (p := (b - a) / 2). set (q := (b + a) / 2). set (m := Nat.div2 n) in *.
  assert (IB : forall i, In i (strided 1 (m + 1)) \/ In i (strided 2 (m + 1)) -> (i < m + 1)%nat).
  { rewrite S12, S1. intros i [H|H]; apply filter_In in H; destruct H as [H _]; apply in_seq in H; lia. }
  assert (LW : (0 < length wgs)%nat) by (destruct wgs; [contradiction|cbn; lia]).
  rewrite (rule_value (gk_of (n, xs, ws, wgs)) f p q) with (a := a) (b := b); try reflexivity.
  2,3: cbn [gk_of gk_x gk_w]; rewrite map_length; lia.
  2:{ cbn [gk_of gk_wg]. rewrite map_length. exact LW. }
  2:{ rewrite XS. cbn [gk_of gk_x gk_w]. rewrite !map_length. intros i Hi. apply IB in Hi. lia. }
  2:{ rewrite OG, XS, GI. cbn [gk_of gk_wg]. rewrite map_length. intros i Hi.
      destruct (Nat.odd m); apply in_map_iff in Hi; destruct Hi as (j & <- & Hj); apply in_seq in Hj.
      - rewrite Nat.div2_double. lia.
      - rewrite Nat.add_1_r, Nat.div2_succ_double. lia. }
  rewrite OG, XS.
  assert (KE : nth 0 (gk_w (gk_of (n, xs, ws, wgs))) 0 * f (p * nth 0 (gk_x (gk_of (n, xs, ws, wgs))) 0 + q) +
     isum (strided 1 (m + 1)) (fun i => nth i (gk_w (gk_of (n, xs, ws, wgs))) 0 * (f (p * nth i (gk_x (gk_of (n, xs, ws, wgs))) 0 + q) + f (- p * nth i (gk_x (gk_of (n, xs, ws, wgs))) 0 + q))) +
     isum (strided 2 (m + 1)) (fun i => nth i (gk_w (gk_of (n, xs, ws, wgs))) 0 * (f (p * nth i (gk_x (gk_of (n, xs, ws, wgs))) 0 + q) + f (- p * nth i (gk_x (gk_of (n, xs, ws, wgs))) 0 + q)))
     = node_sum true (gl_nodes xs ws) f p q).
  { rewrite Rplus_assoc, S12, S1, isum_filter. cbn [gk_of gk_x gk_w]. unfold gl_nodes, node_sum.
    assert (LX : length (map lit xs : list R) = S m) by (rewrite map_length; lia).
    assert (LWW : length (map lit ws : list R) = length (map lit xs : list R)) by (rewrite !map_length; exact C3).
    destruct (map lit xs : list R) as [|x0 xl]; [discriminate|]. destruct (map lit ws : list R) as [|w0 wl]; [discriminate|].
    cbn [combine nth length] in *. injection LX as LX. injection LWW as LWW. f_equal.
    rewrite (pair_isum f p q xl wl LWW), LX, isum_seq_S. reflexivity. }
  assert (GE : (if Nat.odd m then nth 0 (gk_wg (gk_of (n, xs, ws, wgs))) 0 * f (p * nth 0 (gk_x (gk_of (n, xs, ws, wgs))) 0 + q) else 0) +
     isum (strided (if Nat.odd m then 2 else 1) (m + 1)) (fun i => nth (Nat.div2 i) (gk_wg (gk_of (n, xs, ws, wgs))) 0 * (f (p * nth i (gk_x (gk_of (n, xs, ws, wgs))) 0 + q) + f (- p * nth i (gk_x (gk_of (n, xs, ws, wgs))) 0 + q)))
     = node_sum (Nat.odd m) (gl_nodes (gauss_xs n xs) wgs) f p q).
  { rewrite GI. cbn [gk_of gk_x gk_wg]. unfold gauss_xs, gl_nodes, node_sum in *. fold m in C4 |- *.
    destruct (Nat.odd m) eqn:OM.
    - assert (LG : length (map lit wgs : list R) = length (map lit (every_second xs) : list R)) by (rewrite !map_length; exact C4).
      assert (NT : forall j, (j < length wgs)%nat -> nth j (map lit (every_second xs) : list R) 0 = nth (2 * j) (map lit xs) 0).
      { intros j J. rewrite (second_map lit xs (length xs)) by lia. apply (second_nth 0 _ (length xs)); [rewrite map_length; lia|].
        rewrite <- (second_map lit xs (length xs)) by lia. rewrite map_length. lia. }
      assert (N0 : nth 0 (map lit xs : list R) 0 = nth 0 (map lit (every_second xs)) 0) by (rewrite (NT 0%nat LW); reflexivity).
      rewrite N0. rewrite isum_map. assert (LM : length (map lit wgs : list R) = length wgs) by apply map_length.
      destruct (map lit (every_second xs) : list R) as [|x0 xl]; [cbn [length] in LG; lia|]. destruct (map lit wgs : list R) as [|w0 wl]; [discriminate|].
      cbn [combine nth length] in *. injection LG as LG. f_equal.
      rewrite (pair_isum f p q xl wl LG), <- LG, <- LM. cbn [Nat.sub]. rewrite Nat.sub_0_r. apply isum_ext. intros j Hj. apply in_seq in Hj.
      rewrite Nat.div2_double. cbn [nth]. rewrite <- (NT (S j)) by lia. reflexivity.
    - rewrite Rplus_0_l, isum_map. assert (LG : length (map lit wgs : list R) = length (map lit (every_second (tl xs)) : list R)) by (rewrite !map_length; exact C4).
      rewrite (pair_isum f p q _ _ LG), <- LG. rewrite map_length. apply isum_ext. intros j Hj. apply in_seq in Hj.
      rewrite Nat.add_1_r, Nat.div2_succ_double.
      assert (NT : nth j (map lit (every_second (tl xs)) : list R) 0 = nth (S (2 * j)) (map lit xs) 0).
      { rewrite (second_map lit (tl xs) (length xs)) by (destruct xs; cbn; lia).
        rewrite (second_nth 0 _ (length xs)).
        - destruct xs as [|x0 xs]; [cbn in C2; lia|]. reflexivity.
        - rewrite map_length. destruct xs; cbn; lia.
        - rewrite <- (second_map lit (tl xs) (length xs)) by (destruct xs; cbn; lia). rewrite map_length. lia. }
      rewrite NT. reflexivity. }
  rewrite KE, GE. reflexivity.
Qed.
Print Assumptions C27_rule.

(** ** Exactness: with m = (n-1)/2 the Kronrod value is exact up to degree 3m+1 (3m+2 for odd m)
    and the embedded Gauss value up to degree 2m-1, within 2*10^-18 (the tables have 18 or more digits) *)
Definition kronrod_coefs (m : nat) : nat := if Nat.odd m then 3 * m + 3 else 3 * m + 2.
Lemma gk_moments_checked :
  forallb (fun r => let '(n, xs, ws, wgs) := r in
    moments_check 84 (5 * 10 ^ 17) true xs ws (kronrod_coefs (Nat.div2 n)) &&
    moments_check 84 (5 * 10 ^ 17) (Nat.odd (Nat.div2 n)) (gauss_xs n xs) wgs (2 * Nat.div2 n)) gk_rules = true.
Proof. vm_compute. reflexivity. Qed.

Lemma second_in {A} (x : A) l : forall n, (length l <= n)%nat -> In x (every_second l) -> In x l.
Proof.
  intros n. revert l. induction n as [|n IH]; intros l L; [destruct l; [auto|cbn in L; lia]|].
  destruct l as [|y [|z l]]; cbn [every_second]; auto. intros [<-|H]; [now left|]. right. right. apply IH; [cbn in L; lia|exact H].
Qed.
Lemma gauss_in n xs x : In x (gauss_xs n xs) -> In x xs.
Proof.
  unfold gauss_xs. destruct (Nat.odd _); intros H.
  - exact (second_in x xs _ (le_n _) H).
  - apply (second_in x (tl xs) _ (le_n _)) in H. destruct xs; [exact H|now right].
Qed.
Theorem C27_exact n xs ws wgs f F a b c : In (n, xs, ws, wgs) gk_rules -> a <= b ->
  (forall t, f ((b - a) / 2 * t + (b + a) / 2) = poly c t) ->
  (forall x, a <= x <= b -> derivable_pt_lim F x (f x)) ->
  let tolerance := (b - a) / 2 * (2 / 10 ^ 18 * size c) in
  let K := (b - a) / 2 * node_sum true (gl_nodes xs ws) f ((b - a) / 2) ((b + a) / 2) in
  let G := (b - a) / 2 * node_sum (Nat.odd (Nat.div2 n)) (gl_nodes (gauss_xs n xs) wgs) f ((b - a) / 2) ((b + a) / 2) in
  ((length c <= kronrod_coefs (Nat.div2 n))%nat -> Rabs (K - (F b - F a)) <= tolerance) /\
  ((length c <= 2 * Nat.div2 n)%nat -> Rabs (G - (F b - F a)) <= tolerance).
Proof.
  intros HR L FE DF. cbv zeta.
  pose proof gk_checked as C. rewrite forallb_forall in C. specialize (C _ HR). unfold gk_check in C.
  rewrite !andb_true_iff in C. destruct C as ((((((((C1 & C2) & C3) & C4) & C5) & C6) & C7) & C8) & C9).
  apply Nat.eqb_eq in C2, C3, C4.
  pose proof gk_moments_checked as M. rewrite forallb_forall in M. specialize (M _ HR). cbv beta iota in M. apply andb_true_iff in M. destruct M as [MK MG].
  rewrite forallb_forall in C7, C8, C9.
  assert (XR : forall x, In x xs -> 0 <= Rlit x < 1).
  { intros x Hx. specialize (C7 x Hx). rewrite andb_true_iff in C7. destruct C7 as [A B]. split; [now apply Rlit_nonneg|].
    rewrite Rlit_Q. replace 1 with (Q2R 1) by (unfold Q2R; simpl; lra). apply Qlt_Rlt. apply Qnot_le_lt. intros Q.
    apply Qle_bool_iff in Q. rewrite Q in B. discriminate. }
  assert (WR : forall w, (0 <? dec_mant w)%Z && Qle_bool (dec_Q w) 1 = true -> 0 < Rlit w <= 1).
  { intros w H. rewrite andb_true_iff in H. destruct H as [A B]. split; [now apply Rlit_pos|]. apply Qle_bool_iff in B. rewrite Rlit_Q.
    replace 1 with (Q2R 1) by (unfold Q2R; simpl; lra). apply Qle_Rle. exact B. }
  assert (CE : Rlit (hd 1%dec xs) = 0) by (apply Rlit_0; apply Z.eqb_eq; exact C6).
  assert (T0 : 0 <= 2 / 10 ^ 18) by (left; apply Rmult_lt_0_compat; [lra|apply Rinv_0_lt_compat; apply pow_lt; lra]).
  assert (T1 : 2 / 10 ^ 18 = / IZR (5 * 10 ^ 17)) by (rewrite mult_IZR; change (IZR (10 ^ 17)) with (IZR (10 ^ Z.of_nat 17)); rewrite <- (pow_IZR 10 17); field).
  split; intros LC.
  - apply (quad_exact true (gl_nodes xs ws) (2 / 10 ^ 18) (kronrod_coefs (Nat.div2 n))); try assumption.
    intros k Hk. rewrite T1. apply (moments_ok 84 (5 * 10 ^ 17) true xs ws (kronrod_coefs (Nat.div2 n))); try assumption; try lia; auto.
  - apply (quad_exact (Nat.odd (Nat.div2 n)) (gl_nodes (gauss_xs n xs) wgs) (2 / 10 ^ 18) (2 * Nat.div2 n)); try assumption.
    intros k Hk. rewrite T1. apply (moments_ok 84 (5 * 10 ^ 17) (Nat.odd (Nat.div2 n)) (gauss_xs n xs) wgs (2 * Nat.div2 n)); try assumption; try lia; auto.
    + intros x Hx. apply XR. exact (gauss_in n xs x Hx).
    + intros O. unfold gauss_xs. rewrite O. destruct xs as [|x0 [|x1 xl]]; exact CE.
Qed.
Print Assumptions C27_exact.

(** ** get_points *)
(** after k steps of the loop the k innermost nodes on each side are written *)
Lemma set_nth_app {A} (l1 l2 : list A) x v : set_nth (l1 ++ x :: l2) (length l1) v = l1 ++ v :: l2.
Proof. induction l1 as [|y l1 IH]; cbn [app length set_nth]; [reflexivity|]. f_equal. exact IH. Qed.
Lemma points_loop_value (xs : list R) p q : forall k i num,
  (num = i + k)%nat -> (num <= length xs)%nat -> forall tail,
  points_loop xs num i k p q
    (repeat None k ++ map Some (map (fun x => - p * x + q) (rev (firstn i xs)) ++ map (fun x => p * x + q) (firstn i xs)) ++ repeat None k ++ tail)
  = map Some (map (fun x => - p * x + q) (rev (firstn num xs)) ++ map (fun x => p * x + q) (firstn num xs)) ++ tail.
Proof.
  induction k as [|k IH]; intros i num N L tail.
  - replace num with i by lia. cbn [points_loop repeat app]. reflexivity.
  - cbn [points_loop].
    assert (FN : firstn (S i) xs = firstn i xs ++ [nth i xs (lit 0.0 : R)]).
    { revert L N. clear. revert i num. induction xs as [|x xs IH]; intros i num L N; [cbn in L; lia|]. destruct i as [|i]; [reflexivity|].
      cbn [firstn nth app]. f_equal. apply (IH i (num - 1)%nat); cbn in L; lia. }
    assert (LI : length (firstn i xs) = i) by (rewrite firstn_length; lia).
    set (x := nth i xs (lit 0.0 : R)) in *. numR.
    set (mid := map Some (map (fun x => - p * x + q) (rev (firstn i xs)) ++ map (fun x => p * x + q) (firstn i xs))) in *.
    assert (LM : length mid = (2 * i)%nat) by (unfold mid; rewrite map_length, app_length, !map_length, rev_length; lia).
    assert (R1 : forall T (v : T), repeat v (S k) = repeat v k ++ [v]) by (intros T v; change [v] with (repeat v 1); rewrite <- repeat_app; f_equal; lia).
    rewrite (R1 _ None) at 1. rewrite <- (app_assoc (repeat None k)). cbn [app].
    replace (num - i - 1)%nat with (length (repeat (@None R) k)) by (rewrite repeat_length; lia). rewrite set_nth_app.
    replace (num + i)%nat with (length (repeat (@None R) k ++ Some (- p * x + q) :: mid)) by (rewrite app_length, repeat_length; cbn [length]; lia).
    cbn [repeat]. cbn [app].
    replace (repeat None k ++ Some (- p * x + q) :: mid ++ None :: repeat None k ++ tail)
      with ((repeat None k ++ Some (- p * x + q) :: mid) ++ None :: repeat None k ++ tail) by (rewrite <- app_assoc; reflexivity).
    rewrite set_nth_app.
    replace ((repeat None k ++ Some (- p * x + q) :: mid) ++ Some (p * x + q) :: repeat None k ++ tail)
      with (repeat None k ++ map Some (map (fun x => - p * x + q) (rev (firstn (S i) xs)) ++ map (fun x => p * x + q) (firstn (S i) xs)) ++ repeat None k ++ tail).
    + apply IH; lia.
    + rewrite FN, rev_app_distr. cbn [rev app map]. unfold mid. rewrite !map_app. cbn [map]. rewrite <- !app_assoc. cbn [app]. rewrite <- !app_assoc. reflexivity.
Qed.

(** what get_points returns, for any order and nodes *)
Theorem C27_points n (xs : list R) a b : (Nat.div2 n <= length xs)%nat ->
  let p := (b - a) / 2 in let q := (b + a) / 2 in
  get_points n xs a b =
    map (fun x => Some (- p * x + q)) (rev (firstn (Nat.div2 n) xs)) ++ map (fun x => Some (p * x + q)) (firstn (Nat.div2 n) xs) ++
    (if Nat.odd n then [None] else []).
Proof.
  intros L. cbv zeta. unfold get_points.
  assert (E1 : (lit 0.5 * (b - a))%num = (b - a) / 2) by (numR; rewrite half; field).
  assert (E2 : (lit 0.5 * (b + a))%num = (b + a) / 2) by (numR; rewrite half; field). rewrite E1, E2.
  set (m := Nat.div2 n) in *.
  assert (RN : repeat (@None R) n = repeat None m ++ map Some (map (fun x => - ((b - a) / 2) * x + (b + a) / 2) (rev (firstn 0 xs)) ++
     map (fun x => (b - a) / 2 * x + (b + a) / 2) (firstn 0 xs)) ++ repeat None m ++ (if Nat.odd n then [None] else [])).
  { cbn [firstn rev map app].
    rewrite (Nat.div2_odd n) at 1. fold m. replace (2 * m)%nat with (m + m)%nat by lia. rewrite !repeat_app, <- app_assoc.
    do 2 f_equal. destruct (Nat.odd n); reflexivity. }
  rewrite RN, points_loop_value by (lia || exact L). rewrite map_app, !map_map, <- app_assoc. reflexivity.
Qed.
Print Assumptions C27_points.

(** even orders: all the nodes, in increasing order *)
Fixpoint increasing (l : list R) : Prop :=
  match l with [] => True | x :: l' => match l' with [] => True | y :: _ => x < y end /\ increasing l' end.
Fixpoint incr_dec (l : list dec) : bool :=
  match l with [] => true | x :: l' => match l' with [] => true | y :: _ => negb (Qle_bool (dec_Q y) (dec_Q x)) end && incr_dec l' end.
Lemma incr_ok l : incr_dec l = true -> increasing (map Rlit l).
Proof.
  induction l as [|x l IH]; cbn [incr_dec increasing map]; [auto|]. rewrite andb_true_iff. intros [A B]. split; [|now apply IH].
  destruct l as [|y l]; cbn [map]; [exact I|]. rewrite !Rlit_Q. apply Qlt_Rlt. apply Qnot_le_lt. intros Q.
  apply Qle_bool_iff in Q. rewrite Q in A. discriminate.
Qed.
Lemma increasing_app l l' : increasing l -> increasing l' -> (forall x y, In x l -> In y l' -> x < y) -> increasing (l ++ l').
Proof.
  induction l as [|x l IH]; intros A B C; cbn [app]; [exact B|]. cbn [increasing] in *. destruct A as [A1 A2]. split.
  - destruct l as [|y l]; cbn [app]; [destruct l' as [|z l']; [exact I|apply C; [now left|now left]]|exact A1].
  - apply IH; [exact A2|exact B|]. intros u v U V. apply C; [now right|exact V].
Qed.
Lemma increasing_map f l : (forall x y, In x l -> In y l -> x < y -> f x < f y) -> increasing l -> increasing (map f l).
Proof.
  induction l as [|x l IH]; intros H A; cbn [map increasing] in *; [exact I|]. destruct A as [A1 A2]. split.
  - destruct l as [|y l]; cbn [map]; [exact I|]. apply H; [now left|right; now left|exact A1].
  - apply IH; [|exact A2]. intros u v U V. apply H; now right.
Qed.
Lemma increasing_head x l : increasing (x :: l) -> forall y, In y l -> x < y.
Proof.
  revert x. induction l as [|z l IH]; intros x H y Hy; [destruct Hy|]. cbn [increasing] in H. destruct H as [H1 H2].
  destruct Hy as [<-|Hy]; [exact H1|]. specialize (IH z H2 y Hy). lra.
Qed.
Lemma increasing_rev f l : (forall x y, In x l -> In y l -> x < y -> f y < f x) -> increasing l -> increasing (map f (rev l)).
Proof.
  induction l as [|x l IH]; intros H A; cbn [rev]; [exact I|]. rewrite map_app. cbn [map]. apply increasing_app.
  - apply IH; [|cbn [increasing] in A; tauto]. intros u v U V. apply H; now right.
  - cbn [increasing]. auto.
  - intros u v U [<-|[]]. apply in_map_iff in U. destruct U as (w & <- & W). apply in_rev in W.
    apply H; [now left|now right|]. exact (increasing_head x l A w W).
Qed.
Lemma gl_increasing : forallb (fun r => let '(n, xs, _) := r in incr_dec xs && (Nat.odd n || (0 <? dec_mant (hd 0%dec xs))%Z)) gl_rules = true.
Proof. vm_compute. reflexivity. Qed.

Theorem C27_points_even n xs ws a b : In (n, xs, ws) gl_rules -> Nat.even n = true -> a < b ->
  exists l, get_points n (map lit xs) a b = map Some l /\ length l = n /\ increasing l /\
    forall x, In x l <-> used (gl_nodes xs ws) ((b - a) / 2) ((b + a) / 2) x.
Proof.
  intros HR EV L. pose proof (rule_ok _ _ _ HR) as G. destruct G as [GL GS GN GX GW _].
  assert (OD : Nat.odd n = false) by (rewrite <- Nat.negb_even, EV; reflexivity).
  rewrite OD, Nat.add_0_r in GL.
  assert (N2 : n = (2 * Nat.div2 n)%nat) by (rewrite (Nat.div2_odd n) at 1; rewrite OD; cbn [Nat.b2n]; lia).
  pose proof gl_increasing as C. rewrite forallb_forall in C. specialize (C _ HR). cbv beta iota in C. rewrite OD in C. apply andb_true_iff in C. destruct C as [C1 C2].
  cbn [orb] in C2. apply incr_ok in C1. change (map lit xs : list R) with (map Rlit xs).
  assert (POS : forall x, In x (map Rlit xs) -> 0 < x < 1).
  { intros x Hx. split.
    - destruct xs as [|x0 xl]; [destruct Hx|]. cbn [hd] in C2. assert (0 < Rlit x0) by (apply Rlit_pos; exact C2).
      destruct Hx as [<-|Hx]; [assumption|]. pose proof (increasing_head _ _ C1 x Hx). lra.
    - apply in_map_iff in Hx. destruct Hx as (y & <- & Y). apply GX. exact Y. }
  rewrite C27_points by (rewrite map_length; lia). rewrite OD, app_nil_r.
  rewrite firstn_all2 by (rewrite map_length; lia).
  set (p := (b - a) / 2). set (q := (b + a) / 2). assert (P : 0 < p) by (unfold p; lra).
  exists (map (fun x => - p * x + q) (rev (map Rlit xs)) ++ map (fun x => p * x + q) (map Rlit xs)).
  split; [rewrite (map_app Some), !(map_map _ Some); reflexivity|]. split; [rewrite app_length, !map_length, rev_length, map_length; lia|]. split.
  - apply increasing_app.
    + apply increasing_rev; [|exact C1]. intros x y _ _ XY. nra.
    + apply increasing_map; [|exact C1]. intros x y _ _ XY. nra.
    + intros x y X Y. apply in_map_iff in X, Y. destruct X as (u & <- & U). destruct Y as (v & <- & V). apply in_rev in U.
      apply POS in U, V. nra.
  - intros x. rewrite in_app_iff, !in_map_iff. unfold used.
    assert (ND : forall z, In z (map Rlit xs) <-> exists w, In (z, w) (gl_nodes xs ws)).
    { intros z. unfold gl_nodes. change (map lit xs : list R) with (map Rlit xs). split.
      - intros Hz. apply In_nth with (d := 0) in Hz. destruct Hz as (i & I & <-). exists (nth i (map lit ws) 0).
        rewrite <- combine_nth by (rewrite !map_length; symmetry; exact GS). apply nth_In. rewrite combine_length, !map_length in *. lia.
      - intros (w & Hw). apply in_combine_l in Hw. exact Hw. }
    split.
    + intros [(z & <- & Z)|(z & <- & Z)]; [apply in_rev in Z|]; apply ND in Z; destruct Z as (w & W); exists (z, w); cbn [fst]; auto.
    + intros ([z w] & Z & [->| ->]); cbn [fst]; [right|left]; exists z; (split; [reflexivity|]); [|apply in_rev; rewrite rev_involutive]; apply ND; eauto.
Qed.
Print Assumptions C27_points_even.

(** odd orders, that is all Gauss-Kronrod orders and Gauss-Legendre 3, 5 and 7 *)
Definition odd_rules : list (nat * list dec) :=
  [(3, GL3_x); (5, GL5_x); (7, GL7_x); (7, GK7_x); (15, GK15_x); (21, GK21_x); (31, GK31_x); (61, GK61_x)]%nat.
Lemma odd_checked : forallb (fun r => let '(n, xs) := r in Nat.odd n && Nat.eqb (length xs) (Nat.div2 n + 1) && negb (Nat.eqb (Nat.div2 n) 0) &&
  (dec_mant (hd 1%dec xs) =? 0)%Z && incr_dec xs) odd_rules = true.
Proof. vm_compute. reflexivity. Qed.
Lemma increasing_last : forall l e, increasing l -> l <> [] -> forall x, In x (firstn (length l - 1) l) -> x < last l e.
Proof.
  induction l as [|y l IH]; intros e I NE x Hx; [contradiction|]. destruct l as [|z l]; [cbn in Hx; destruct Hx|].
  cbn [length Nat.sub] in Hx. cbn [firstn] in Hx. destruct Hx as [<-|Hx].
  - change (last (y :: z :: l) e) with (last (z :: l) e). apply (increasing_head y (z :: l) I).
    rewrite (app_removelast_last e (l := z :: l)) at 2 by discriminate. apply in_or_app. right. now left.
  - change (last (y :: z :: l) e) with (last (z :: l) e). apply IH; [cbn [increasing] in I; cbn [increasing]; tauto|discriminate|].
    cbn [length Nat.sub]. rewrite Nat.sub_0_r. exact Hx.
Qed.

Theorem C27_points_odd n xs a b : In (n, xs) odd_rules -> a < b ->
  let pts := get_points n (map lit xs) a b in
  let m := Nat.div2 n in
  let outermost := last (map Rlit xs) 0 in
  length pts = n /\
  nth_error pts (n - 1) = Some None /\
  nth_error pts (m - 1) = Some (Some ((b + a) / 2)) /\ nth_error pts m = Some (Some ((b + a) / 2)) /\
  ~ In (Some ((b - a) / 2 * outermost + (b + a) / 2)) pts /\ ~ In (Some (- ((b - a) / 2) * outermost + (b + a) / 2)) pts.
Proof.
  intros HR L. cbv zeta. pose proof odd_checked as C. rewrite forallb_forall in C. specialize (C _ HR). cbv beta iota in C.
  rewrite !andb_true_iff in C. destruct C as ((((C1 & C2) & C3) & C4) & C5). apply Nat.eqb_eq in C2. apply negb_true_iff, Nat.eqb_neq in C3.
  apply Z.eqb_eq in C4. apply incr_ok in C5. apply (Rlit_0 (hd 1%dec xs)) in C4.
  rewrite C27_points by (rewrite map_length; lia). rewrite C1. change (map lit xs : list R) with (map Rlit xs).
  assert (N2 : n = (2 * Nat.div2 n + 1)%nat) by (rewrite (Nat.div2_odd n) at 1; rewrite C1; cbn [Nat.b2n]; lia).
  set (m := Nat.div2 n) in *. set (p := (b - a) / 2). set (q := (b + a) / 2). assert (P : 0 < p) by (unfold p; lra).
  set (l := firstn m (map Rlit xs)).
  assert (LL : length l = m) by (unfold l; rewrite firstn_length, map_length; lia).
  assert (L0 : exists l', l = 0 :: l').
  { unfold l. destruct xs as [|x0 xl]; [cbn in C2; lia|]. cbn [hd] in C4. destruct m; [lia|]. cbn [map firstn]. rewrite C4. eauto. }
  destruct L0 as [l' EL].
  assert (SM : forall x, In x l -> 0 <= x < last (map Rlit xs) 0).
  { intros x Hx. split.
    - rewrite EL in Hx. destruct Hx as [<-|Hx]; [lra|]. left.
      assert (I2 : increasing (0 :: l')).
      { rewrite <- EL. unfold l. clear - C5. generalize m. clear m. induction (map Rlit xs) as [|y k IH]; intros [|m]; cbn [firstn increasing]; auto.
        cbn [increasing] in C5. destruct C5 as [A B]. split; [|apply IH; exact B]. destruct k as [|z k]; destruct m; cbn [firstn]; auto. }
      exact (increasing_head _ _ I2 x Hx).
    - apply increasing_last; [exact C5|destruct xs; [cbn in C2; lia|discriminate]|]. rewrite map_length. replace (length xs - 1)%nat with m by lia. exact Hx. }
  set (A := map (fun x => Some (- p * x + q)) (rev l)). set (B := map (fun x => Some (p * x + q)) l).
  assert (LA : length A = m) by (unfold A; rewrite map_length, rev_length; exact LL).
  assert (LB : length B = m) by (unfold B; rewrite map_length; exact LL).
  split; [rewrite !app_length; cbn [length]; lia|]. split.
  { rewrite nth_error_app2 by lia. rewrite nth_error_app2 by lia. replace (n - 1 - length A - length B)%nat with 0%nat by lia. reflexivity. }
  split.
  { rewrite nth_error_app1 by lia. unfold A. rewrite EL. cbn [rev]. rewrite map_app.
    assert (L1 : length l' = (m - 1)%nat) by (rewrite EL in LL; cbn [length] in LL; lia).
    rewrite nth_error_app2 by (rewrite map_length, rev_length; lia). rewrite map_length, rev_length, L1, Nat.sub_diag. cbn [map nth_error].
    do 2 f_equal. ring. }
  split.
  { rewrite nth_error_app2 by lia. rewrite LA, Nat.sub_diag. rewrite nth_error_app1 by lia. unfold B. rewrite EL. cbn [map nth_error]. do 2 f_equal. ring. }
  set (o := last (map Rlit xs) 0) in *.
  assert (O0 : 0 < o) by (destruct (SM 0); [rewrite EL; now left|]; lra).
  assert (OUT : forall v, In (Some v) (A ++ B ++ [None]) -> - p * o + q < v < p * o + q).
  { intros v H. apply in_app_or in H. destruct H as [H|H]; [|apply in_app_or in H; destruct H as [H|[H|[]]]; [|discriminate]].
    - unfold A in H. apply in_map_iff in H. destruct H as (x & E & Hx). injection E as <-. apply in_rev in Hx. apply SM in Hx. nra.
    - unfold B in H. apply in_map_iff in H. destruct H as (x & E & Hx). injection E as <-. apply SM in Hx. nra. }
  split; intros H; apply OUT in H; lra.
Qed.
Print Assumptions C27_points_odd.

(** ** The integrator as called: total integrands always give a result *)
Theorem C27_defined r f a b eps reps n : In r gk_rules -> exists v, gk_integrate (gk_of r) (fun x => Ok (f x)) a b eps reps n = Ok v.
Proof.
  destruct r as [[[k xs] ws] wgs]. intros HR. unfold gk_integrate.
  assert (T : forall x y e q, exists v, gk_adaptive (gk_nonadaptive (gk_of (k, xs, ws, wgs)) (fun z => Ok (f z))) 49 x y e q = Ok v).
  { intros x y e q. destruct (C27_terminates (gk_nonadaptive (gk_of (k, xs, ws, wgs)) (fun z => Ok (f z))) x y e q) as (v & c & _ & E & _); [|eauto].
    intros u w. rewrite C27_rule by exact HR. eauto. }
  generalize (lit 0 : R). induction (seq 0 n) as [|i l IH]; intros z; cbn [ofold]; [eauto|].
  match goal with |- context [gk_adaptive ?r 49 ?x ?y ?e ?q] => destruct (T x y e q) as [v ->] end. cbn [bind]. apply IH.
Qed.
Print Assumptions C27_defined.

(** ** A concrete case: order 7 on [0, 2]: x^2 *)
Example C27_case : exists v err, gk_nonadaptive gk7 (fun x => Ok (x ^ 2)) 0 2 = Ok (v, err) /\ Rabs (v - 8 / 3) <= 8 / 10 ^ 18 /\
  nth_error (get_points 7 (map lit GK7_x) 0 2) 6 = Some None.
Proof.
  assert (HR : In (7%nat, GK7_x, GK7_w, GK7_wg) gk_rules) by (cbn [gk_rules In]; tauto).
  destruct (C27_exact 7 GK7_x GK7_w GK7_wg (fun x => x ^ 2) (fun x => x ^ 3 / 3) 0 2 [1; 2; 1] HR) as [KE _]; [lra| | |].
  - intros t. unfold poly. cbn [fold_right]. field.
  - intros x _. pose proof (derivable_pt_lim_scal (fun y => y ^ 3) (/ 3) x _ (derivable_pt_lim_pow x 3)) as D.
    unfold mult_real_fct in D. cbn [pred] in D. replace (x ^ 2) with (/ 3 * (INR 3 * x ^ 2)) by (cbn [INR]; field).
    eapply derivable_pt_lim_ext; [|exact D]. intros y. cbn beta. unfold Rdiv. ring.
  - cbv zeta in KE. specialize (KE ltac:(cbn; lia)). eexists _, _. split; [exact (C27_rule 7 GK7_x GK7_w GK7_wg (fun x => x ^ 2) 0 2 HR)|]. split.
    + replace (8 / 3) with (2 ^ 3 / 3 - 0 ^ 3 / 3) by field. eapply Rle_trans; [exact KE|].
      unfold size. cbn [fold_right]. rewrite !Rabs_pos_eq by lra.
      replace ((2 - 0) / 2 * (2 / 10 ^ 18 * (1 + (2 + (1 + 0))))) with (8 / 10 ^ 18) by (field; apply pow_nonzero; lra). lra.
    + apply (C27_points_odd 7 GK7_x 0 2); [cbn [odd_rules In]; tauto|lra].
Qed.
