(** * Over the reals the library calls are free of undefined behaviour (support for C01, C38, C52) *)
From Coq Require Import ZArith Reals List Bool Lra Lia.
From Verif Require Import Num NumR Structures EnergyTable Spline Integrator Srim Calculations
  NucData Reactions Storage Catima GridProofs InterpProofs BoundsProofs DataQuadrature
  CacheProofs CacheFresh KeyEq History.
Import ListNotations.
Local Open Scope R_scope.

(** ** Quadrature nodes *)
Lemma GL8_nodes_range : Forall (fun n : R * R => 0 < fst n < 98 / 100 /\ 0 < snd n) GL8_nodes.
Proof.
  unfold GL8_nodes, gl_nodes, GL8_x, GL8_w. cbn [map combine]. numR. dec_norm.
  repeat constructor; simpl; lra.
Qed.

(** where the integrator evaluates its integrand *)
Definition inner (a b z : R) : Prop :=
  a + (b - a) / 100 <= z <= b - (b - a) / 100.

Lemma gl_pairs_ok nodes f p q : (forall n, In n nodes -> defined (f (p * fst n + q)) /\ defined (f (- p * fst n + q))) ->
  forall r, defined (gl_pairs (F:=R) nodes f p q r).
Proof.
  induction nodes as [|[x w] l IH]; intros H r; simpl; [apply defined_Ok|].
  destruct (H (x, w) (or_introl eq_refl)) as [H1 H2]. simpl in H1, H2.
  dbind; [exact H1|]. dbind; [exact H2|]. apply IH. intros n Hn. apply H. now right.
Qed.

Lemma integrate_ok f a b : a <= b -> (forall z, inner a b z -> defined (f z)) ->
  defined (integrate (F:=R) f a b).
Proof.
  intros L H. unfold integrate, gl_integrate. change (Nat.odd 8) with false. cbv iota zeta.
  dbind; [|apply defined_Ok]. apply gl_pairs_ok. intros n Hn.
  pose proof GL8_nodes_range as G. rewrite Forall_forall in G. specialize (G n Hn). destruct G as [G _].
  numR. dec_norm. split; apply H; unfold inner; split; nra.
Qed.

(** ** The library grid *)
Notation G600 := (gval 600 (-3) 7).
Lemma energy_table_eq : energy_table (F:=R) = et_make 600 (-3) 7.
Proof.
  unfold energy_table, logEmin, logEmax. change (Z.to_nat max_datapoints) with 600%nat. numR. dec_norm.
  replace (70 / 10) with 7 by lra. reflexivity.
Qed.

Lemma n600 : (2 <= 600)%nat. Proof. lia. Qed.
Lemma m600 : (Z.of_nat 600 < 2147483648)%Z. Proof. reflexivity. Qed.
Lemma l600 : -3 < 7. Proof. lra. Qed.
#[global] Hint Resolve n600 m600 l600 : grid.

Lemma glast_same : glast 600 (-3) 7 = ls_glast.
Proof. unfold ls_glast. rewrite !glast_val by (lia || lra). reflexivity. Qed.

Lemma LN10_bounds : 2 < LN10_ (F:=R) < 7 / 3.
Proof. unfold LN10_. numR. dec_norm. lra. Qed.

Lemma exp_7_bound : exp 7 <= 2187.
Proof.
  replace 7 with (1 + (1 + (1 + (1 + (1 + (1 + 1)))))) by lra. rewrite !exp_plus.
  pose proof exp_le_3. pose proof (exp_pos 1).
  replace 2187 with (3 * (3 * (3 * (3 * (3 * (3 * 3)))))) by lra.
  repeat (apply Rmult_le_compat; [lra | repeat (apply Rmult_le_pos; [lra|]); lra | lra | ]). lra.
Qed.

Lemma gfirst_bound : / 2187 < G600 0.
Proof.
  unfold gval. replace (LN10_ * (-3 + 0 * gstep 600 (-3) 7)) with (- (LN10_ * 3)) by ring.
  rewrite exp_Ropp. apply Rinv_lt_contravar.
  - apply Rmult_lt_0_compat; [apply exp_pos | lra].
  - pose proof LN10_bounds. pose proof exp_7_bound.
    assert (exp (LN10_ * 3) < exp 7) by (apply exp_increasing; lra). lra.
Qed.

(** consecutive grid points are well separated *)
Lemma grid_gap i : (0 <= i)%Z -> 1 / 100000 < G600 (IZR (i + 1)) - G600 (IZR i).
Proof.
  intros H.
  assert (E : G600 (IZR (i + 1)) = G600 (IZR i) * exp (LN10_ * gstep 600 (-3) 7)).
  { unfold gval. rewrite <- exp_plus. f_equal. rewrite plus_IZR. ring. }
  rewrite E. set (y := LN10_ * gstep 600 (-3) 7).
  assert (S : gstep 600 (-3) 7 = 10 / 599).
  { unfold gstep. rewrite INR_IZR_INZ. change (Z.of_nat 600) with 600%Z. lra. }
  assert (Y : 20 / 599 < y) by (unfold y; rewrite S; pose proof LN10_bounds; lra).
  pose proof (exp_ineq1 y ltac:(lra)) as X.
  assert (P : G600 0 <= G600 (IZR i)) by (apply gval_le; auto with grid; apply IZR_le; lia).
  pose proof gfirst_bound. nra.
Qed.

Lemma inner_safe i z : (0 <= i <= 598)%Z -> inner (G600 (IZR i)) (G600 (IZR (i + 1))) z ->
  G600 (IZR i) < z < G600 (IZR (i + 1)) /\ 0 < z /\ z < ls_glast - numeric_epsilon.
Proof.
  intros B [H1 H2]. pose proof (grid_gap i ltac:(lia)) as G. pose proof (gval_pos 600 (-3) 7 (IZR i)).
  assert (G600 (IZR (i + 1)) <= ls_glast).
  { rewrite <- glast_same, glast_IZR. apply gval_le; auto with grid. apply IZR_le. lia. }
  pose proof eps_small. lra.
Qed.

Lemma inner_ls_safe i z : (0 <= i <= 598)%Z -> inner (G600 (IZR i)) (G600 (IZR (i + 1))) z -> ls_safe z.
Proof. intros B H. destruct (inner_safe i z B H). unfold ls_safe. lra. Qed.

(** ** Tables *)
Lemma accumulate_ok (step : R -> R -> outcome R) (P : R -> R -> Prop) :
  (forall a b, P a b -> defined (step a b)) ->
  forall rest lo prev,
  (forall i, (i < length rest)%nat -> P (nth i (lo :: rest) 0) (nth (S i) (lo :: rest) 0)) ->
  exists l, accumulate step lo rest prev = Ok l /\ length l = length rest.
Proof.
  intros S. induction rest as [|hi rest IH]; intros lo prev H; simpl.
  - exists []. auto.
  - destruct (S lo hi) as [r ->]. { apply (H 0%nat). simpl; lia. } simpl.
    destruct (IH hi (r + prev)) as (l & -> & L).
    { intros i Hi. apply (H (Datatypes.S i)). simpl; lia. }
    simpl. eexists; split; [reflexivity|]. simpl. now rewrite L.
Qed.

Lemma grid_nth i : (i < 600)%nat -> nth i (et_values (energy_table (F:=R))) 0 = G600 (INR i).
Proof.
  intros H. rewrite energy_table_eq. apply nth_error_nth. now apply et_nth.
Qed.
Lemma grid_length : length (et_values (energy_table (F:=R))) = 600%nat.
Proof. rewrite energy_table_eq. now apply et_values_length. Qed.

Definition grid_pair (a b : R) : Prop :=
  exists i, (0 <= i <= 598)%Z /\ a = G600 (IZR i) /\ b = G600 (IZR (i + 1)).

Lemma table_ok (step : R -> R -> outcome R) : (forall a b, grid_pair a b -> defined (step a b)) ->
  exists l, table step (et_values energy_table) = Ok l /\ length l = 600%nat.
Proof.
  intros S. pose proof grid_length as L.
  assert (GN : forall i, (Datatypes.S i < 600)%nat ->
     grid_pair (nth i (et_values energy_table) 0) (nth (Datatypes.S i) (et_values energy_table) 0)).
  { intros i Hi. exists (Z.of_nat i). rewrite !grid_nth by lia. split; [lia|].
    rewrite !INR_IZR_INZ. split; auto. f_equal. f_equal. lia. }
  unfold table. destruct (et_values energy_table) as [|g0 rest]; [discriminate|]. simpl in L.
  destruct (accumulate_ok step grid_pair S rest g0 (lit 0.0)) as (l & -> & Hl).
  { intros i Hi. apply GN. lia. }
  cbn [bind]. eexists. split; [reflexivity|]. simpl. lia.
Qed.

Definition key_ok (p : Projectile R) (t : Material R) : Prop :=
  proj_Z_ok p /\ targets_ok t /\ radiation_ok t.

Lemma scaled_ok A f a b : grid_pair a b -> (forall z, ls_safe z -> defined (f z)) ->
  defined (scaled_integral (F:=R) A f a b).
Proof.
  intros (i & B & -> & ->) H. unfold scaled_integral. dbind; [|apply defined_Ok].
  apply integrate_ok.
  - pose proof (grid_gap i). assert (0 <= i)%Z by lia. specialize (H0 H1). lra.
  - intros z Hz. apply H. eapply inner_ls_safe; eauto.
Qed.

Lemma range_table_ok p t c : key_ok p t -> exists l, range_table p t c = Ok l /\ length l = 600%nat.
Proof.
  intros (Z & Tg & _). apply table_ok. intros a b G. apply scaled_ok; auto. intros z Hz.
  unfold fdedx. dbind; [|apply defined_Ok]. apply dedx_ok; auto.
Qed.
Lemma straggling_table_ok p t c : key_ok p t -> exists l, straggling_table p t c = Ok l /\ length l = 600%nat.
Proof.
  intros (Z & Tg & _). apply table_ok. intros a b G. apply scaled_ok; auto. intros z Hz.
  unfold fomega. dbind; [now apply domega2dx_ok|]. dbind; [|apply defined_Ok]. apply dedx_ok; auto.
Qed.
Lemma angular_table_ok p t c : key_ok p t -> exists l, angular_table p t c = Ok l /\ length l = 600%nat.
Proof.
  intros (Z & Tg & Ra). apply table_ok. intros a b G. apply scaled_ok; auto. intros z Hz.
  unfold ftheta. apply da2de_ok; auto.
Qed.

(** ** Splines *)
Lemma inner_rows_length : forall xs ys : list R, length xs = length ys ->
  length (inner_rows xs ys) = (length xs - 2)%nat.
Proof.
  induction xs as [|xm xs IH]; intros [|ym ys] H; simpl in H; try discriminate; try reflexivity.
  destruct xs as [|x0 [|xp xs]], ys as [|y0 [|yp ys]]; simpl in H; try discriminate; try reflexivity.
  specialize (IH (y0 :: yp :: ys) ltac:(simpl; lia)).
  change (inner_rows (xm :: x0 :: xp :: xs) (ym :: y0 :: yp :: ys))
    with (mkRow (lit 1.0 / lit 3.0 * (xp - x0))%num (lit 2.0 / lit 3.0 * (xp - xm))%num
              (lit 1.0 / lit 3.0 * (x0 - xm))%num
              ((yp - y0) / (xp - x0) - (y0 - ym) / (x0 - xm))%num
          :: inner_rows (x0 :: xp :: xs) (y0 :: yp :: ys)).
  simpl length in *. lia.
Qed.

Lemma trig_back_length : forall l (x : R), length (trig_back x l) = S (length l).
Proof. induction l as [|[g x'] l IH]; intros x; simpl; auto. Qed.

Lemma trig_forward_length : forall rows (c b x : R) l, trig_forward c b x rows = Some l -> length l = length rows.
Proof.
  induction rows as [|r rows IH]; intros c b x l H; simpl in H.
  - now inversion H.
  - destruct (Reqb _ _); [discriminate|].
    match type of H with match ?T with _ => _ end = _ => destruct T eqn:E end; [|discriminate]. inversion H; subst. simpl. f_equal. eauto.
Qed.

Lemma trig_solve_ok (rows : list (row R)) r0 rows' : rows = r0 :: rows' -> rd r0 <> 0 ->
  exists b, trig_solve rows = Ok b /\ length b = length rows.
Proof.
  intros -> H. unfold trig_solve.
  destruct (feqb (rd r0) (lit 0.0)) eqn:E.
  - apply Reqb_true in E. cbn in E. dec_norm. lra.
  - destruct (trig_forward _ _ _ _) as [l|] eqn:T.
    + eexists; split; [reflexivity|]. rewrite trig_back_length. apply trig_forward_length in T. simpl. lia.
    + eexists; split; [reflexivity|]. apply repeat_length.
Qed.

Lemma spline_ac_length : forall xs ys bs : list R, length xs = length ys -> length xs = length bs ->
  length (spline_ac xs ys bs) = (length xs - 1)%nat.
Proof.
  induction xs as [|x0 xs IH]; intros [|y0 ys] [|b0 bs] H1 H2; simpl in H1, H2; try discriminate; try reflexivity.
  destruct xs as [|x1 xs], ys as [|y1 ys], bs as [|b1 bs]; simpl in H1, H2; try discriminate; try reflexivity.
  specialize (IH (y1 :: ys) (b1 :: bs) ltac:(simpl; lia) ltac:(simpl; lia)).
  simpl spline_ac in *. simpl length in *. lia.
Qed.

Lemma set_last_length : forall (l : list R) v, length (set_last l v) = length l.
Proof. induction l as [|x [|y l] IH]; intros v; simpl; auto. f_equal. apply IH. Qed.

Lemma spline_rows_length (xs ys : list R) j : length xs = length ys -> (2 <= length xs)%nat ->
  length (spline_rows xs ys j) = length xs.
Proof.
  intros H L. unfold spline_rows. simpl. rewrite app_length, inner_rows_length by assumption. simpl. lia.
Qed.

(** the spline's arrays all have the size of the grid *)
Definition spline_ok (s : spline R) : Prop :=
  sp_table s = energy_table /\ (600 <= length (sp_y s))%nat /\ length (sp_a s) = 600%nat /\
  length (sp_b s) = 600%nat /\ length (sp_c s) = 600%nat.

Lemma make_spline_ok y j : length y = 600%nat ->
  exists s, make_spline energy_table y j = Ok s /\ spline_ok s /\ sp_y s = y.
Proof.
  intros L. unfold make_spline.
  pose proof grid_length as GL.
  assert (EN : et_n (energy_table (F:=R)) = 600%nat) by (rewrite energy_table_eq; reflexivity).
  rewrite EN, L. change (600 <? 600)%nat with false. cbv iota zeta.
  remember (et_values energy_table) as xs eqn:Exs. rewrite firstn_all2 by lia.
  assert (RL : length (spline_rows xs y j) = 600%nat) by (rewrite spline_rows_length; lia).
  destruct (trig_solve_ok (spline_rows xs y j) (mkRow (lit 0.0) (lit 2.0) (fst j) (lit 0.0))
    (inner_rows xs y ++ [mkRow (snd j) (lit 2.0) (lit 0.0) (lit 0.0)])) as (b & -> & BL).
  { reflexivity. }
  { cbn [rd]. numR. dec_norm. lra. }
  cbn [bind]. eexists. split; [reflexivity|]. split; [|reflexivity].
  assert (AC : length (spline_ac xs y b) = 599%nat) by (rewrite spline_ac_length; lia).
  unfold spline_ok; cbn [sp_table sp_y sp_a sp_b sp_c].
  rewrite set_last_length, !app_length, !map_length, AC. cbn [length].
  repeat split; lia.
Qed.

Lemma et_index_total v : exists i, et_index (energy_table (F:=R)) v = Ok i /\ (-1 <= i <= 599)%Z.
Proof.
  rewrite energy_table_eq. destruct (Rlt_le_dec v (gfirst 600 (-3) 7)).
  - exists (-1)%Z. split; [|lia]. apply index_below; auto with grid.
  - destruct (Rlt_le_dec v (glast 600 (-3) 7 - numeric_epsilon)).
    + destruct (index_inside 600 (-3) 7 n600 m600 l600 v) as (i & E & B & _); [lra|].
      exists i. split; auto. change (Z.of_nat 600) with 600%Z in B. lia.
    + exists 599%Z. split; [|lia]. apply (index_above 600); auto with grid.
Qed.

Lemma spline_eval_ok s x : spline_ok s -> defined (spline_eval s x).
Proof.
  intros (T & L1 & L2 & L3 & L4). unfold spline_eval. rewrite T.
  destruct (et_index_total x) as (i & -> & B). cbn [bind]. cbv zeta.
  assert (EN : et_n (energy_table (F:=R)) = 600%nat) by (rewrite energy_table_eq; reflexivity).
  rewrite EN. change (Z.of_nat 600) with 600%Z. pose proof grid_length as GL.
  assert (IB : (0 <= Z.max i 0 <= 599)%Z) by lia.
  dbind; [apply defined_aget; rewrite GL; lia|].
  dbind; [apply defined_aget; rewrite GL; lia|].
  dbind; [apply defined_aget; rewrite GL; lia|].
  destruct (fltb _ _). { dbind; [apply defined_aget; lia|]. apply defined_Ok. }
  destruct (fltb _ _); repeat (dbind; [apply defined_aget; lia|]); apply defined_Ok.
Qed.

Lemma spline_deriv_ok s x : spline_ok s -> defined (spline_deriv s x).
Proof.
  intros (T & L1 & L2 & L3 & L4). unfold spline_deriv. rewrite T.
  destruct (et_index_total x) as (i & -> & B). cbn [bind]. cbv zeta.
  assert (EN : et_n (energy_table (F:=R)) = 600%nat) by (rewrite energy_table_eq; reflexivity).
  rewrite EN. change (Z.of_nat 600) with 600%Z. pose proof grid_length as GL.
  assert (IB : (0 <= Z.max i 0 <= 599)%Z) by lia.
  dbind; [apply defined_aget; rewrite GL; lia|].
  dbind; [apply defined_aget; rewrite GL; lia|].
  dbind; [apply defined_aget; rewrite GL; lia|].
  destruct (fltb _ _). { apply defined_Ok. }
  destruct (fltb _ _); repeat (dbind; [apply defined_aget; lia|]); apply defined_Ok.
Qed.

(** ** A cache miss never fails *)
Definition dp_ok (d : DataPoint R) : Prop :=
  exists s1 s2 s3, dp_range_spline d = Some s1 /\ dp_rs_spline d = Some s2 /\
    dp_av_spline d = Some s3 /\ spline_ok s1 /\ spline_ok s2 /\ spline_ok s3.

Lemma rcalc_total junk k p t c : key_ok p t ->
  exists d, rcalc junk calculate_DataPoint k p t c = Ok d /\ dp_ok d.
Proof.
  intros K. unfold rcalc, calculate_DataPoint.
  destruct (range_table_ok p t c K) as (r & -> & Lr).
  destruct (angular_table_ok p t c K) as (a & -> & La).
  destruct (straggling_table_ok p t c K) as (s & -> & Ls).
  cbn [bind]. unfold with_splines. cbn [dp_range dp_rs dp_av].
  destruct (make_spline_ok r (junk k) Lr) as (s1 & -> & O1 & _).
  destruct (make_spline_ok s (junk (k + 1)%nat) Ls) as (s2 & -> & O2 & _).
  destruct (make_spline_ok a (junk (k + 2)%nat) La) as (s3 & -> & O3 & _).
  cbn [bind]. eexists; split; [reflexivity|]. exists s1, s2, s3. simpl. auto 10.
Qed.
