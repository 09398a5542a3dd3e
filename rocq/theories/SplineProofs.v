(** * The tridiagonal solver and the spline arrays over the reals (support for C20-C24) *)
From Coq Require Import ZArith Reals List Bool Lra Lia FunctionalExtensionality.
From Verif Require Import Num NumR Structures EnergyTable Spline GridProofs TotalProofs.
Import ListNotations.
Local Open Scope R_scope.

(** ** The solver *)

(** rows a_i x_{i-1} + d_i x_i + c_i x_{i+1} = b_i, one after the other; [prev] is x_{i-1} *)
Fixpoint solves (prev : R) (rows : list (row R)) (xs : list R) : Prop :=
  match rows, xs with
  | [], [] => True
  | r :: rows', x :: xs' =>
      ra r * prev + rd r * x + rc r * hd 0 xs' = rb r /\ solves x rows' xs'
  | _, _ => False
  end.

Lemma lit0_ : (lit 0.0 : R) = 0. Proof. numR. dec_norm. lra. Qed.

Lemma back_cons x l : exists y r, trig_back (F:=R) x l = y :: r.
Proof. destruct l as [|[g x'] l]; cbn; eauto. Qed.

Lemma forward_solves rows : forall cprev bet xprev l, bet <> 0 ->
  trig_forward (F:=R) cprev bet xprev rows = Some l ->
  forall x0 rest, trig_back xprev l = x0 :: rest ->
    bet * x0 + cprev * hd 0 rest = bet * xprev /\ solves x0 rows rest.
Proof.
  induction rows as [|r rows IH]; intros cprev bet xprev l B H x0 rest E.
  - cbn in H. injection H as <-. cbn in E. injection E as <- <-. cbn. split; [ring|exact I].
  - cbn [trig_forward] in H. rewrite lit0_ in H.
    numR.
    destruct (Reqb_spec (rd r - ra r * (cprev / bet)) 0) as [|B']; [discriminate|].
    set (bet' := rd r - ra r * (cprev / bet)) in *.
    set (x' := (rb r - ra r * xprev) / bet') in *.
    destruct (trig_forward (rc r) bet' x' rows) as [l'|] eqn:F; [|discriminate].
    injection H as <-. cbn [trig_back] in E.
    destruct (back_cons x' l') as (x1 & rest' & E').
    rewrite E' in E. cbn [hd] in E. numR. injection E as <- <-.
    destruct (IH _ _ _ _ B' F x1 rest' E') as [P S].
    cbn [hd solves]. split; [field; exact B|]. split; [|exact S].
    assert (Q : bet' * x' = rb r - ra r * xprev) by (unfold x'; field; exact B').
    replace (ra r * (xprev - cprev / bet * x1) + rd r * x1 + rc r * hd 0 rest')
      with (ra r * xprev + (bet' * x1 + rc r * hd 0 rest')) by (unfold bet'; ring).
    rewrite P, Q. ring.
Qed.

Lemma solves_forward rows : forall cprev bet xprev l, bet <> 0 ->
  trig_forward (F:=R) cprev bet xprev rows = Some l ->
  forall x0 rest, bet * x0 + cprev * hd 0 rest = bet * xprev -> solves x0 rows rest ->
    x0 :: rest = trig_back xprev l.
Proof.
  induction rows as [|r rows IH]; intros cprev bet xprev l B H x0 rest P S.
  - cbn in H. injection H as <-. destruct rest; [|contradiction]. cbn in *. f_equal.
    apply Rmult_eq_reg_l with bet; [lra|assumption].
  - cbn [trig_forward] in H. rewrite lit0_ in H. numR.
    destruct (Reqb_spec (rd r - ra r * (cprev / bet)) 0) as [|B']; [discriminate|].
    set (bet' := rd r - ra r * (cprev / bet)) in *.
    set (x' := (rb r - ra r * xprev) / bet') in *.
    destruct (trig_forward (rc r) bet' x' rows) as [l'|] eqn:F; [|discriminate].
    injection H as <-. destruct rest as [|x1 rest]; [contradiction|]. cbn [solves hd] in P, S.
    destruct S as [S1 S]. cbn [trig_back].
    assert (X0 : x0 = xprev - cprev / bet * x1).
    { apply Rmult_eq_reg_l with bet; [|assumption].
      replace (bet * (xprev - cprev / bet * x1)) with (bet * xprev - cprev * x1) by (field; assumption). lra. }
    rewrite <- (IH _ _ _ _ B' F x1 rest); [|clear IH|exact S].
    + cbn [hd]. f_equal. numR. exact X0.
    + assert (Q : bet' * x' = rb r - ra r * xprev) by (unfold x'; field; exact B').
      rewrite Q, <- S1, X0. unfold bet'. ring.
Qed.

(** a strictly dominant system *)
Definition dominant (r : row R) : Prop := Rabs (ra r) + Rabs (rc r) < Rabs (rd r).

Lemma forward_dominant rows : forall cprev bet xprev, Rabs cprev < Rabs bet -> Forall dominant rows ->
  exists l, trig_forward (F:=R) cprev bet xprev rows = Some l.
Proof.
  induction rows as [|r rows IH]; intros cprev bet xprev C D; [exists []; reflexivity|].
  inversion D as [|? ? D1 D2]; subst. unfold dominant in D1.
  assert (BP : 0 < Rabs bet) by (pose proof (Rabs_pos cprev); lra).
  assert (B : bet <> 0) by (intros Q; rewrite Q, Rabs_R0 in BP; lra).
  assert (G : Rabs (cprev / bet) < 1).
  { unfold Rdiv. rewrite Rabs_mult, Rabs_inv. apply Rmult_lt_reg_r with (Rabs bet); [assumption|].
    rewrite Rmult_assoc, Rinv_l, Rmult_1_r, Rmult_1_l by lra. assumption. }
  assert (P : Rabs (rc r) < Rabs (rd r - ra r * (cprev / bet))).
  { pose proof (Rabs_triang_inv (rd r) (ra r * (cprev / bet))) as T. rewrite Rabs_mult in T.
    assert (Rabs (ra r) * Rabs (cprev / bet) <= Rabs (ra r) * 1).
    { apply Rmult_le_compat_l; [apply Rabs_pos|lra]. } lra. }
  cbn [trig_forward]. rewrite lit0_. numR.
  destruct (Reqb_spec (rd r - ra r * (cprev / bet)) 0) as [Q|_].
  - rewrite Q, Rabs_R0 in P. pose proof (Rabs_pos (rc r)). lra.
  - destruct (IH (rc r) (rd r - ra r * (cprev / bet))
               ((rb r - ra r * xprev) / (rd r - ra r * (cprev / bet))) P D2) as [l ->]. eauto.
Qed.

Lemma solve_inv (rows : list (row R)) x : trig_solve rows = Ok x ->
  exists r0 rows', rows = r0 :: rows' /\ rd r0 <> 0 /\
    ((exists l, trig_forward (rc r0) (rd r0) (rb r0 / rd r0) rows' = Some l /\ x = trig_back (rb r0 / rd r0) l) \/
     (trig_forward (rc r0) (rd r0) (rb r0 / rd r0) rows' = None /\ x = repeat 0 (length rows))).
Proof.
  destruct rows as [|r0 rows']; [discriminate|]. unfold trig_solve. rewrite lit0_. numR.
  destruct (Reqb_spec (rd r0) 0) as [|B]; [discriminate|]. intros H. exists r0, rows'. split; [reflexivity|].
  split; [assumption|].
  destruct (trig_forward (rc r0) (rd r0) (rb r0 / rd r0) rows') as [l|]; injection H as <-; [left|right]; eauto.
Qed.

Lemma solve_exact (rows : list (row R)) : rows <> [] -> Forall dominant rows ->
  exists x, trig_solve rows = Ok x /\ solves 0 rows x /\ (forall x', solves 0 rows x' -> x' = x).
Proof.
  intros NE D. destruct rows as [|r0 rows]; [contradiction|]. inversion D as [|? ? D1 D2]; subst. unfold dominant in D1.
  assert (B : rd r0 <> 0).
  { intros Q. rewrite Q, Rabs_R0 in D1. pose proof (Rabs_pos (ra r0)). pose proof (Rabs_pos (rc r0)). lra. }
  assert (C : Rabs (rc r0) < Rabs (rd r0)) by (pose proof (Rabs_pos (ra r0)); lra).
  destruct (forward_dominant rows (rc r0) (rd r0) (rb r0 / rd r0) C D2) as [l F].
  exists (trig_back (rb r0 / rd r0) l). split; [|split].
  - unfold trig_solve. rewrite lit0_. numR. destruct (Reqb_spec (rd r0) 0); [contradiction|].
    rewrite F. reflexivity.
  - destruct (back_cons (rb r0 / rd r0) l) as (x0 & rest & E). rewrite E.
    destruct (forward_solves _ _ _ _ _ B F _ _ E) as [P S]. cbn [solves]. split; [|exact S].
    rewrite Rmult_0_r, Rplus_0_l, P. field. exact B.
  - intros [|x0 rest] S; [contradiction|]. cbn [solves] in S. destruct S as [S1 S].
    apply (solves_forward _ _ _ _ _ B F); [|exact S]. rewrite Rmult_0_r, Rplus_0_l in S1. rewrite S1. field. exact B.
Qed.

Lemma solves_length rows : forall p xs, solves p rows xs -> length xs = length rows.
Proof. induction rows as [|r rows IH]; intros p [|x xs] H; cbn in *; try contradiction; auto. f_equal. eapply IH, H. Qed.

(** by index *)
Lemma solves_nth rows : forall p xs, solves p rows xs <->
  length xs = length rows /\
  forall i r, nth_error rows i = Some r ->
    ra r * (if Nat.eqb i 0 then p else nth (i - 1) xs 0) + rd r * nth i xs 0 + rc r * nth (S i) xs 0 = rb r.
Proof.
  induction rows as [|r rows IH]; intros p [|x xs]; cbn [solves length].
  - split; [|intros _; exact I]. intros _. split; [reflexivity|]. intros [|i] r Hr; discriminate.
  - split; [contradiction|]. intros [H _]. discriminate.
  - split; [contradiction|]. intros [H _]. discriminate.
  - rewrite IH. split.
    + intros [H1 [H2 H3]]. split; [now f_equal|]. intros i r' Hi. destruct i as [|i]; cbn in Hi.
      * injection Hi as <-. cbn. destruct xs; exact H1.
      * specialize (H3 i r' Hi). destruct i as [|i]; cbn in *; [exact H3|].
        rewrite Nat.sub_0_r in H3. exact H3.
    + intros [H1 H2]. split; [|split].
      * specialize (H2 0%nat r eq_refl). cbn in H2. destruct xs; exact H2.
      * now injection H1.
      * intros i r' Hi. specialize (H2 (S i) r' Hi). destruct i as [|i]; cbn in *; [exact H2|].
        rewrite Nat.sub_0_r. exact H2.
Qed.

(** ** The rows of the spline *)
Lemma inner_rows_nth : forall (xs ys : list R) i, length xs = length ys -> (i + 2 < length xs)%nat ->
  exists r, nth_error (inner_rows xs ys) i = Some r /\
    ra r = / 3 * (nth (i + 2) xs 0 - nth (i + 1) xs 0) /\ rd r = 2 / 3 * (nth (i + 2) xs 0 - nth i xs 0) /\
    rc r = / 3 * (nth (i + 1) xs 0 - nth i xs 0) /\
    rb r = (nth (i + 2) ys 0 - nth (i + 1) ys 0) / (nth (i + 2) xs 0 - nth (i + 1) xs 0)
           - (nth (i + 1) ys 0 - nth i ys 0) / (nth (i + 1) xs 0 - nth i xs 0).
Proof.
  induction xs as [|xm xs IH]; intros ys i L B; [cbn in B; lia|].
  destruct ys as [|ym ys]; [discriminate|]. cbn [length] in L, B. injection L as L.
  destruct xs as [|x0 [|xp xs]]; [cbn in B; lia|cbn in B; lia|].
  destruct ys as [|y0 [|yp ys]]; [discriminate|discriminate|].
  destruct i as [|i].
  - cbn [inner_rows nth_error Nat.add nth]. eexists. split; [reflexivity|]. cbn [ra rd rc rb]. numR. dec_norm.
    repeat split; lra.
  - destruct (IH (y0 :: yp :: ys) i L ltac:(cbn in *; lia)) as (r & E & H).
    exists r. split; [exact E|]. exact H.
Qed.

Lemma spline_ac_nth : forall (xs ys bs : list R) i, length xs = length ys -> length xs = length bs ->
  (i + 1 < length xs)%nat ->
  nth_error (spline_ac xs ys bs) i =
  Some (/ 3 * (nth (i + 1) bs 0 - nth i bs 0) / (nth (i + 1) xs 0 - nth i xs 0),
        (nth (i + 1) ys 0 - nth i ys 0) / (nth (i + 1) xs 0 - nth i xs 0)
        - / 3 * (2 * nth i bs 0 + nth (i + 1) bs 0) * (nth (i + 1) xs 0 - nth i xs 0)).
Proof.
  induction xs as [|x0 xs IH]; intros ys bs i L1 L2 B; [cbn in B; lia|].
  destruct ys as [|y0 ys]; [discriminate|]. destruct bs as [|b0 bs]; [discriminate|].
  cbn [length] in L1, L2, B. injection L1 as L1. injection L2 as L2.
  destruct xs as [|x1 xs]; [cbn in B; lia|].
  destruct ys as [|y1 ys]; [discriminate|]. destruct bs as [|b1 bs]; [discriminate|].
  destruct i as [|i].
  - cbn [spline_ac nth_error Nat.add nth]. f_equal. numR. dec_norm. f_equal; unfold Rdiv; lra.
  - specialize (IH (y1 :: ys) (b1 :: bs) i L1 L2 ltac:(cbn in *; lia)).
    replace (S i + 1)%nat with (S (i + 1)) by lia. cbn [nth].
    replace (nth_error (spline_ac (x0 :: x1 :: xs) (y0 :: y1 :: ys) (b0 :: b1 :: bs)) (S i))
      with (nth_error (spline_ac (x1 :: xs) (y1 :: ys) (b1 :: bs)) i) by reflexivity.
    exact IH.
Qed.

Lemma set_last_nth : forall (l : list R) v i, (i + 1 < length l)%nat -> nth i (set_last l v) 0 = nth i l 0.
Proof.
  induction l as [|x l IH]; intros v i H; [cbn in H; lia|]. destruct l as [|y l]; [cbn in H; lia|].
  destruct i as [|i]; [reflexivity|]. cbn [set_last nth]. apply IH. cbn in *. lia.
Qed.
Lemma set_last_last : forall (l : list R) v, l <> [] -> nth (length l - 1) (set_last l v) 0 = v.
Proof.
  induction l as [|x l IH]; intros v H; [contradiction|]. destruct l as [|y l]; [reflexivity|].
  cbn [length Nat.sub]. cbn [set_last]. cbn [nth]. specialize (IH v ltac:(discriminate)).
  cbn [length] in IH. rewrite Nat.sub_succ, Nat.sub_0_r in IH. exact IH.
Qed.

Lemma firstn_nth (l : list R) n i : (i < n)%nat -> nth i (firstn n l) 0 = nth i l 0.
Proof.
  revert n i. induction l as [|x l IH]; intros n i H; [now rewrite firstn_nil|].
  destruct n; [lia|]. destruct i; [reflexivity|]. cbn. apply IH. lia.
Qed.

(** ** The arrays of a constructed spline *)
Record arrays (xs : list R) (y : list R) (s : spline R) (b : list R) : Prop := {
  ar_b : length b = length xs;
  ar_la : length (sp_a s) = length xs; ar_lb : length (sp_b s) = length xs; ar_lc : length (sp_c s) = length xs;
  ar_sa : forall i, (i + 1 < length xs)%nat ->
    nth i (sp_a s) 0 = / 3 * (nth (i + 1) b 0 - nth i b 0) / (nth (i + 1) xs 0 - nth i xs 0);
  ar_sb : forall i, (i + 1 < length xs)%nat -> nth i (sp_b s) 0 = nth i b 0;
  ar_sc : forall i, (i + 1 < length xs)%nat ->
    nth i (sp_c s) 0 = (nth (i + 1) y 0 - nth i y 0) / (nth (i + 1) xs 0 - nth i xs 0)
                       - / 3 * (2 * nth i b 0 + nth (i + 1) b 0) * (nth (i + 1) xs 0 - nth i xs 0);
  ar_al : nth (length xs - 1) (sp_a s) 0 = 0; ar_bl : nth (length xs - 1) (sp_b s) 0 = 0;
  ar_cl : let k := (length xs - 2)%nat in
    let h := nth (k + 1) xs 0 - nth k xs 0 in
    nth (length xs - 1) (sp_c s) 0 = 3 * nth k (sp_a s) 0 * h * h + 2 * nth k b 0 * h + nth k (sp_c s) 0;
  ar_b0 : sp_b0 s = 0; ar_c0 : sp_c0 s = nth 0 (sp_c s) 0
}.

Lemma solve_length (rows : list (row R)) x : trig_solve rows = Ok x -> length x = length rows.
Proof.
  intros H. destruct (solve_inv _ _ H) as (r0 & rows' & -> & _ & [(l & F & ->)|(_ & ->)]).
  - rewrite trig_back_length. apply trig_forward_length in F. cbn. lia.
  - apply repeat_length.
Qed.

Lemma make_spline_arrays t y junk s : length (et_values t) = et_n t -> (2 <= et_n t)%nat ->
  make_spline (F:=R) t y junk = Ok s ->
  (et_n t <= length y)%nat /\ sp_table s = t /\ sp_y s = y /\
  exists b, trig_solve (spline_rows (et_values t) (firstn (et_n t) y) junk) = Ok b /\
            arrays (et_values t) y s b.
Proof.
  intros LT N2 H. unfold make_spline in H. destruct (Nat.ltb_spec (length y) (et_n t)) as [|LY]; [discriminate|].
  split; [assumption|].
  set (n := et_n t) in *. set (xs := et_values t) in *.
  assert (LF : length (firstn n y) = n) by (rewrite firstn_length; lia).
  destruct (trig_solve (spline_rows xs (firstn n y) junk)) as [b|] eqn:E; [|discriminate].
  assert (LB : length b = n).
  { rewrite (solve_length _ _ E), spline_rows_length; lia. }
  cbn [bind] in H. set (ac := spline_ac xs (firstn n y) b) in *.
  assert (LA : length ac = (n - 1)%nat) by (unfold ac; rewrite spline_ac_length; lia).
  assert (AC : forall i, (i + 1 < n)%nat -> nth_error ac i =
     Some (/ 3 * (nth (i + 1) b 0 - nth i b 0) / (nth (i + 1) xs 0 - nth i xs 0),
        (nth (i + 1) y 0 - nth i y 0) / (nth (i + 1) xs 0 - nth i xs 0)
        - / 3 * (2 * nth i b 0 + nth (i + 1) b 0) * (nth (i + 1) xs 0 - nth i xs 0))).
  { intros i Hi. unfold ac. rewrite spline_ac_nth by lia. rewrite !firstn_nth by lia. reflexivity. }
  clearbody ac. rewrite !lit0_ in H. injection H as <-. cbn [sp_table sp_y].
  split; [reflexivity|]. split; [reflexivity|]. exists b. split; [reflexivity|].
  assert (NA : forall i, (i + 1 < n)%nat -> nth i (map fst ac ++ [0]) 0 = fst (nth i ac (0, 0))).
  { intros i Hi. rewrite app_nth1 by (rewrite map_length; lia).
    change 0 with (fst (0, 0)) at 1. rewrite map_nth. reflexivity. }
  assert (NC : forall v i, (i + 1 < n)%nat -> nth i (map snd ac ++ [v]) 0 = snd (nth i ac (0, 0))).
  { intros v i Hi. rewrite app_nth1 by (rewrite map_length; lia).
    change 0 with (snd (0, 0)) at 1. rewrite map_nth. reflexivity. }
  assert (NN : forall i, (i + 1 < n)%nat -> nth i ac (0, 0) =
      (/ 3 * (nth (i + 1) b 0 - nth i b 0) / (nth (i + 1) xs 0 - nth i xs 0),
        (nth (i + 1) y 0 - nth i y 0) / (nth (i + 1) xs 0 - nth i xs 0)
        - / 3 * (2 * nth i b 0 + nth (i + 1) b 0) * (nth (i + 1) xs 0 - nth i xs 0))).
  { intros i Hi. apply nth_error_nth. now apply AC. }
  constructor; cbn [sp_a sp_b sp_c sp_b0 sp_c0]; rewrite ?lit0_, ?LT; fold n.
  - lia.
  - rewrite app_length, map_length. cbn. lia.
  - rewrite set_last_length. lia.
  - rewrite app_length, map_length. cbn. lia.
  - intros i Hi. rewrite NA, NN by assumption. reflexivity.
  - intros i Hi. apply set_last_nth. lia.
  - intros i Hi. rewrite NC, NN by assumption. reflexivity.
  - rewrite app_nth2 by (rewrite map_length; lia). rewrite map_length, LA, Nat.sub_diag. reflexivity.
  - rewrite <- LB. apply set_last_last. intros Q. rewrite Q in LB. cbn in LB. lia.
  - cbv zeta. rewrite app_nth2 by (rewrite map_length; lia). rewrite map_length, LA, Nat.sub_diag. cbn [nth].
    assert (LL : last ac (0, 0) = nth (n - 2) ac (0, 0)).
    { clear - LA N2. revert LA. assert (G : forall m (l : list (R * R)), length l = S m -> last l (0, 0) = nth m l (0, 0)).
      { induction m as [|m IHm]; intros l Hl; destruct l as [|p l]; try discriminate.
        - destruct l; [reflexivity|discriminate].
        - destruct l as [|q l]; [discriminate|]. injection Hl as Hl. change (nth (S m) (p :: q :: l) (0, 0)) with (nth m (q :: l) (0, 0)).
          rewrite <- IHm by (cbn; lia). reflexivity. }
      intros LA. apply G. lia. }
    rewrite LL, NA, NC by lia. replace (n - 2 + 1)%nat with (n - 1)%nat by lia. numR.
    dec_norm. lra.
  - reflexivity.
  - rewrite NC by lia. destruct ac as [|p ac]; [cbn in LA; lia|]. reflexivity.
Qed.

(** ** Pasting functions at knots *)
Fixpoint paste (f : R -> R) (l : list (R * (R -> R))) (x : R) : R :=
  match l with
  | [] => f x
  | (k, g) :: l' => if Rlt_dec x k then f x else paste g l' x
  end.

(** consecutive functions agree at the knot between them, knots increase *)
Fixpoint glued (f : R -> R) (l : list (R * (R -> R))) : Prop :=
  match l with
  | [] => True
  | (k, g) :: l' => f k = g k /\ (match l' with [] => True | (k', _) :: _ => k < k' end) /\ glued g l'
  end.

Lemma paste_at_knot k g l : (match l with [] => True | (k', _) :: _ => k < k' end) -> paste g l k = g k.
Proof. destruct l as [|[k' g'] l]; intros H; cbn; [reflexivity|]. destruct (Rlt_dec k k'); [reflexivity|contradiction]. Qed.

Lemma Rmin_cont k : continuity (fun x => Rmin x k).
Proof.
  assert (E : (fun x => Rmin x k) = (fun x => (x + k - Rabs (x - k)) / 2)).
  { apply functional_extensionality. intros x. unfold Rmin. destruct (Rle_dec x k).
    - rewrite Rabs_left1 by lra. field.
    - rewrite Rabs_right by lra. field. }
  rewrite E. reg.
Qed.
Lemma Rmax_cont k : continuity (fun x => Rmax x k).
Proof.
  assert (E : (fun x => Rmax x k) = (fun x => (x + k + Rabs (x - k)) / 2)).
  { apply functional_extensionality. intros x. unfold Rmax. destruct (Rle_dec x k).
    - rewrite Rabs_left1 by lra. field.
    - rewrite Rabs_right by lra. field. }
  rewrite E. reg.
Qed.

Lemma paste_cont l : forall f, continuity f -> Forall (fun kg => continuity (snd kg)) l -> glued f l ->
  continuity (paste f l).
Proof.
  induction l as [|[k g] l IH]; intros f Cf Cl G.
  - exact Cf.
  - inversion Cl as [|? ? Cg Cl']; subst. cbn in Cg. destruct G as (M & K & G).
    pose proof (IH g Cg Cl' G) as CG. pose proof (paste_at_knot k g l K) as PK.
    assert (E : paste f ((k, g) :: l) =
                (fun x => f (Rmin x k) + paste g l (Rmax x k) - f k)).
    { apply functional_extensionality. intros x. cbn [paste]. destruct (Rlt_dec x k).
      - rewrite Rmin_left, Rmax_right by lra. rewrite PK, M. ring.
      - rewrite Rmin_right, Rmax_left by lra. ring. }
    rewrite E. apply (continuity_minus (fun x => f (Rmin x k) + paste g l (Rmax x k)) (fun _ => f k)).
    + apply (continuity_plus (fun x => f (Rmin x k)) (fun x => paste g l (Rmax x k))).
      * exact (continuity_comp (fun x => Rmin x k) f (Rmin_cont k) Cf).
      * exact (continuity_comp (fun x => Rmax x k) (paste g l) (Rmax_cont k) CG).
    + intros x. apply continuity_pt_const. intros a b. reflexivity.
Qed.

(** which piece applies *)
Lemma paste_before f k g l x : x < k -> paste f ((k, g) :: l) x = f x.
Proof. intros H. cbn. destruct (Rlt_dec x k); [reflexivity|contradiction]. Qed.

Lemma paste_piece (X : nat -> R) (P : nat -> R -> R) (m k : nat) (f : R -> R) x i :
  (forall a b, (a < b)%nat -> X a < X b) -> (k <= i < k + m)%nat -> X i <= x ->
  ((S i < k + m)%nat -> x < X (S i)) ->
  paste f (map (fun j => (X j, P j)) (seq k m)) x = P i x.
Proof.
  intros MX. revert k f. induction m as [|m IH]; intros k f B L U; [lia|].
  cbn [seq map paste]. destruct (Rlt_dec x (X k)) as [Q|Q].
  - exfalso. destruct (Nat.eq_dec i k) as [->|NE]; [lra|]. pose proof (MX k i ltac:(lia)). lra.
  - destruct (Nat.eq_dec i k) as [->|NE].
    + destruct m as [|m]; [reflexivity|]. cbn [seq map]. apply paste_before. apply U. lia.
    + apply IH; [lia|assumption|]. intros W. apply U. lia.
Qed.

Lemma paste_left (X : nat -> R) (P : nat -> R -> R) m f x : (0 < m)%nat -> x < X 0%nat ->
  paste f (map (fun j => (X j, P j)) (seq 0 m)) x = f x.
Proof. intros M H. destruct m; [lia|]. cbn [seq map]. now apply paste_before. Qed.

Lemma glued_seq (X : nat -> R) (P : nat -> R -> R) m : forall k f,
  (forall a b, (a < b)%nat -> X a < X b) -> f (X k) = P k (X k) ->
  (forall j, (k <= j)%nat -> (S j < k + m)%nat -> P j (X (S j)) = P (S j) (X (S j))) ->
  glued f (map (fun j => (X j, P j)) (seq k m)).
Proof.
  induction m as [|m IH]; intros k f MX F G; [exact I|]. cbn [seq map glued]. split; [assumption|]. split.
  - destruct m; [exact I|]. cbn. apply MX. lia.
  - destruct m; [exact I|]. apply IH; [assumption| |].
    + apply G; lia.
    + intros j H1 H2. apply G; lia.
Qed.
