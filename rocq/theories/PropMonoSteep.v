(** * C65: how much the energy can change where the range changes by the tolerance of the search *)
From Coq Require Import ZArith Reals List Bool Lra Lia.
From Verif Require Import Num NumR Structures DataQuadrature EnergyTable Spline Integrator Calculations Storage Catima Cases CacheProofs CacheFresh History KeyEq ApiCache
  EnergyOutProofs LayerProofs GridProofs SplineProofs SplineMono QuadProofs TotalProofs ApiTotal PropGrid PropSpline PropQuad PropTables PropCache PropEnergyOut PropResult PropApi PropMono PropMonoApi PropMonoOut.
Import ListNotations.
Local Open Scope R_scope.

Definition tilt (k : R) (f : R -> R) : R -> R := fun x => f x - k * x.
Lemma paste_tilt k : forall l f x, paste (tilt k f) (map (fun p => (fst p, tilt k (snd p))) l) x = paste f l x - k * x.
Proof. induction l as [|[a g] l IH]; intros f x; cbn [paste map fst snd]; [reflexivity|]. destruct (Rlt_dec x a); [reflexivity|apply IH]. Qed.

Section Steep.
  Variables (y : list R) (jk : R * R) (s : spline R).
  Hypothesis J0 : Rabs (fst jk) < 2.
  Hypothesis J1 : Rabs (snd jk) < 2.
  Hypothesis MS : make_spline energy_table y jk = Ok s.
  Hypothesis GEN : gentle energy_table y.
  Variable m : R.
  Hypothesis m0 : 0 < m.
  Hypothesis steep : forall i, (S i < 600)%nat -> m <= chord_slope energy_table y i.
  Notation X i := (gval 600 (-3) 7 (INR i)).
  Let k := 149 / 1000 * m.
  Let made_ := made' y jk s MS.

  Lemma tilt_piece i lo hi : (forall x, lo <= x <= hi -> k < slope 600 (-3) 7 s i x) -> forall x z, lo <= x -> x < z -> z <= hi -> tilt k (piece 600 (-3) 7 s i) x < tilt k (piece 600 (-3) 7 s i) z.
  Proof.
    intros D x z L XZ U. unfold tilt. destruct (MVT_cor2 (piece 600 (-3) 7 s i) (slope 600 (-3) 7 s i) x z XZ) as (c & E & C); [intros c C; apply piece_deriv|].
    specialize (D c ltac:(lra)). assert (0 < (slope 600 (-3) 7 s i c - k) * (z - x)) by (apply Rmult_lt_0_compat; lra). lra.
  Qed.
  Lemma whole_steep x z : x < z -> k * (z - x) < whole 600 (-3) 7 s z - whole 600 (-3) 7 s x.
  Proof.
    intros XZ. set (lo := Rmin x (X 0 - 1)). pose proof (Rmin_l x (X 0 - 1)) as M1. pose proof (Rmin_r x (X 0 - 1)) as M2. fold lo in M1, M2.
    destruct (whole_weights 600 (-3) 7 ltac:(lia) y (gen' y GEN)) as (K1 & W0 & WV & WC).
    assert (CS : forall i c, (S i < 600)%nat -> X i <= c <= X (S i) -> k < slope 600 (-3) 7 s i c).
    { intros i c I C. destruct (cell_slope y jk s J0 J1 MS GEN i c I) as [_ B]; [rewrite !energy_G by lia; exact C|]. pose proof (steep i I). unfold k. lra. }
    assert (KP : 0 < k) by (unfold k; lra).
    assert (TAIL : forall q j, (j + q = 599)%nat -> incs z (X j) (tilt k (piece 600 (-3) 7 s j)) (map (fun p => (fst p, tilt k (snd p))) (map (fun j => (X j, piece 600 (-3) 7 s j)) (seq (S j) q)))).
    { induction q as [|q IH]; intros j J; cbn [seq map incs fst snd].
      - intros a b LA AB BZ. replace j with 599%nat in * by lia. apply (tilt_piece 599 a b); try lra. intros c _.
        pose proof (last_slope 600 (-3) 7 ltac:(lia) ltac:(lra) library_fine y jk s J0 J1 made_ (chord_slope (et_make 600 (-3) 7) y) 599 K1 W0 WV WC ltac:(reflexivity) c eq_refl) as PS. apply abs_in in PS. pose proof (steep 598%nat ltac:(lia)) as ST. rewrite energy_table_eq in ST. change (600 - 1)%nat with 599%nat in PS. change (600 - 2)%nat with 598%nat in PS. unfold k. lra.
      - split; [apply X_lt; [lia|lra|lia]|]. split; [intros a b LA AB UB _; apply (tilt_piece j (X j) (X (S j))); try lra; intros c C; apply CS; [lia|exact C]|].
        split; [|apply IH; lia]. unfold tilt. rewrite piece_start. pose proof (piece_end 600 (-3) 7 ltac:(lia) ltac:(lra) y jk s made_ j ltac:(lia)) as PE. replace (j + 1)%nat with (S j) in PE by lia. rewrite PE. reflexivity. }
    assert (INC : incs z lo (tilt k (left_line 600 (-3) 7 s)) (map (fun p => (fst p, tilt k (snd p))) (map (fun j => (X j, piece 600 (-3) 7 s j)) (seq 0 600)))).
    { assert (SQ : seq 0 600 = 0%nat :: seq 1 599) by reflexivity. rewrite SQ. cbn [map incs fst snd]. split; [lra|]. split; [|split; [unfold tilt; rewrite piece_start; unfold left_line; ring|apply TAIL; lia]].
      intros a b _ AB _ _. unfold tilt, left_line. pose proof (X_lt 600 (-3) 7 ltac:(lia) ltac:(lra) 0 1 ltac:(lia)). pose proof (CS 0%nat (X 0) ltac:(lia) ltac:(lra)) as PS. replace (slope 600 (-3) 7 s 0 (X 0)) with (nth 0 (sp_c s) 0) in PS by (unfold slope; cbv zeta; ring).
      assert (0 < (nth 0 (sp_c s) 0 - k) * (b - a)) by (apply Rmult_lt_0_compat; lra). lra. }
    destruct (incs_paste z _ lo _ INC) as [_ PI]. specialize (PI x z M1 XZ (Rle_refl z)). rewrite !paste_tilt in PI. fold (whole 600 (-3) 7 s) in PI. lra.
  Qed.

  (** two energies 20 tolerances of the grid apart or more: the ranges differ by at least 14.9 percent of the least slope of a chord times what is left of the distance *)
  Theorem C65_steep x z : x + 20 * numeric_epsilon <= z -> exists u v, spline_eval s x = Ok u /\ spline_eval s z = Ok v /\ 149 / 1000 * m * (z - x - 20 * numeric_epsilon) < v - u.
  Proof.
    intros XZ. pose proof eps_pos as EP. destruct (whole_weights 600 (-3) 7 ltac:(lia) y (gen' y GEN)) as (K1 & W0 & WV & WC).
    destruct (eval_below 600 (-3) 7 ltac:(lia) ltac:(lia) ltac:(lra) library_fine y jk s J0 J1 made_ (chord_slope (et_make 600 (-3) 7) y) 599 K1 W0 WV WC ltac:(reflexivity) x ltac:(left; reflexivity)) as (u & U & U1).
    destruct (eval_above 600 (-3) 7 ltac:(lia) ltac:(lia) ltac:(lra) library_fine y jk s J0 J1 made_ (chord_slope (et_make 600 (-3) 7) y) 599 K1 W0 WV WC ltac:(reflexivity) z ltac:(left; reflexivity)) as (v & V & V1).
    exists u, v. split; [exact U|]. split; [exact V|]. fold k. assert (LE : x + numeric_epsilon <= z - 19 * numeric_epsilon) by lra. destruct (Rle_lt_or_eq_dec _ _ LE) as [L|E].
    - pose proof (whole_steep _ _ L) as WS. replace (z - 19 * numeric_epsilon - (x + numeric_epsilon)) with (z - x - 20 * numeric_epsilon) in WS by ring. lra.
    - rewrite E in U1. replace (z - x - 20 * numeric_epsilon) with 0 by lra. rewrite Rmult_0_r. lra.
  Qed.
End Steep.
Print Assumptions C65_steep.

(** ** The library *)
(** every chord of the range table has at least the slope m: nowhere more than 1/m MeV of energy per nucleon for 1 g/cm2 *)
Definition at_least (m : R) (y : list R) : Prop := 0 < m /\ forall i, (S i < 600)%nat -> m <= chord_slope energy_table y i.
Section Library.
  Variable junk : nat -> R * R.
  Hypothesis SJ : small_junk junk.

  Lemma range_steep h w p t c rt m d w' x z u v g : exec_all junk h world0 = Ok w -> legit_p p -> legit_t t -> range_table p t c = Ok rt -> gentle energy_table rt -> at_least m rt ->
    lookup junk p t c w = Ok (d, w') -> interp_eval (dp_range_spline d) x = Ok u -> interp_eval (dp_range_spline d) z = Ok v -> Rabs (v - u) <= g -> Rabs (z - x) <= g / (149 / 1000 * m) + 20 * numeric_epsilon.
  Proof.
    intros EH LP LT RT G [M0 M1] L U V B. destruct (lookup_made junk h w p t c d w' EH LP LT L) as (RT' & k & s & MS & SP). assert (rt = dp_range d) by congruence. subst rt. rewrite SP in U, V. cbn [interp_eval] in U, V. destruct (SJ k) as [J0 J1]. pose proof eps_pos as EP.
    assert (G0 : 0 <= g) by (pose proof (Rabs_pos (v - u)); lra). assert (Q : 0 <= g / (149 / 1000 * m)) by (apply Rmult_le_pos; [exact G0|left; apply Rinv_0_lt_compat; lra]).
    assert (ONE : forall a b ua ub, spline_eval s a = Ok ua -> spline_eval s b = Ok ub -> ub - ua <= g -> b - a <= g / (149 / 1000 * m) + 20 * numeric_epsilon).
    { intros a b ua ub A B' LE. destruct (Rle_lt_dec b (a + 20 * numeric_epsilon)) as [C|C]; [lra|]. destruct (C65_steep (dp_range d) (junk k) s J0 J1 MS G m M0 M1 a b ltac:(lra)) as (u' & v' & U' & V' & S). assert (u' = ua) by congruence. assert (v' = ub) by congruence. subst.
      assert (b - a - 20 * numeric_epsilon <= g / (149 / 1000 * m)); [|lra]. apply (Rmult_le_reg_l (149 / 1000 * m)); [lra|]. replace (149 / 1000 * m * (g / (149 / 1000 * m))) with g by (field; lra). lra. }
    apply abs_in in B. apply Rabs_le. pose proof (ONE x z u v U V ltac:(lra)). pose proof (ONE z x v u V U ltac:(lra)). lra.
  Qed.

  (** the energy behind a layer differs from an energy of which the remaining range is exact by at most the tolerance of the search over 14.9 percent of the least slope *)
  Theorem C65_accuracy h w p t c rt m e w1 rT w2 x rx w3 : exec_all junk h world0 = Ok w -> legit_p p -> legit_t t -> range_table p t c = Ok rt -> gentle energy_table rt -> at_least m rt ->
    energy_out junk p t c w = Ok (e, w1) -> e <> 0 -> e <> -1 -> range junk p t c w1 = Ok (rT, w2) -> range junk (at_T p x) t c w2 = Ok (rx, w3) -> rx = rT - m_th t ->
    Rabs (e - x) <= 1 / 100000 / (149 / 1000 * m) + 20 * numeric_epsilon.
  Proof.
    intros EH LP LT RT G AL H E0 E1 HT HX RX. pose proof (exec_all_wf junk h w EH) as W. unfold energy_out in H. apply bind_ok in H. destruct H as ([d w5] & L & H). apply bind_ok in H. destruct H as (x' & H & Q). apply ok_inj in Q. apply pair_equal_spec in Q. destruct Q as [-> ->].
    assert (LR : forall T, lookup junk (at_T p T) t c w1 = Ok (d, w1)) by (intros T; exact (laterE junk p t c w d w1 W L T)).
    pose proof (LR (pT p)) as L0. rewrite same_p in L0. unfold range in HT. rewrite L0 in HT. cbn [bind] in HT. apply bind_ok in HT. destruct HT as (q & HT & Q). apply ok_inj in Q. apply pair_equal_spec in Q. destruct Q as [-> <-].
    unfold range in HX. rewrite LR in HX. cbn [bind] in HX. apply bind_ok in HX. destruct HX as (q & HX & Q). apply ok_inj in Q. apply pair_equal_spec in Q. destruct Q as [-> _]. cbn [at_T pT] in HX.
    unfold energy_out_sp in H. apply C08_class in H. destruct H as (u1 & U1 & [[_ Q]|[_ [Q|[Q|(v1 & V1 & B1)]]]]); try contradiction. assert (u1 = rT) by congruence. subst u1.
    apply (range_steep h w p t c rt m d w1 x e rx v1 (1 / 100000) EH LP LT RT G AL L HX V1). apply Rabs_def2 in B1. apply Rabs_le. lra.
  Qed.

  Lemma passes_history p t c : forall w T ths e w', passes_api junk p t c w T ths e w' -> forall h, exec_all junk h world0 = Ok w -> exists h', exec_all junk h' world0 = Ok w'.
  Proof.
    intros w T ths e w' P. induction P as [w T|w T th ths e e' w1 w' H E0 E1 P IH]; intros h EH; [exists h; exact EH|]. apply (IH (h ++ [CEnergyOut (at_T p T) (set_thickness t th) c])). eapply exec_all_snoc; [exact EH|]. unfold exec, one. rewrite H. reflexivity.
  Qed.
  (** a layer in one piece or in several *)
  Theorem C65_split h w p t c rt m T ths e w' e1 w'' : exec_all junk h world0 = Ok w -> legit_p p -> legit_t t -> range_table p t c = Ok rt -> gentle energy_table rt -> at_least m rt ->
    passes_api junk p t c w T ths e w' -> ths <> [] -> passes_api junk p t c w' T [total ths] e1 w'' -> Rabs (e - e1) <= (INR (length ths) + 1) * (1 / 100000) / (149 / 1000 * m) + 20 * numeric_epsilon.
  Proof.
    intros EH LP LT RT G AL P NE P1. destruct (C10_api junk h w p t c T ths e w' EH P NE) as (rT & re & HT & HE & B). destruct (passes_history p t c w T ths e w' P h EH) as (h' & EH').
    destruct (C10_api junk h' w' p t c T [total ths] e1 w'' EH' P1 ltac:(discriminate)) as (rT' & r1 & HT' & H1 & B1). pose proof (exec_all_wf junk h' w' EH') as W.
    unfold range in HT. apply bind_ok in HT. destruct HT as ([d w2] & L & HT). apply bind_ok in HT. destruct HT as (q & HT & Q). apply ok_inj in Q. apply pair_equal_spec in Q. destruct Q as [-> ->].
    assert (LL : forall T th, lookup junk (at_T p T) (set_thickness t th) c w' = Ok (d, w')) by (intros T2 th; destruct (lookup_again junk w' (at_T p T) t c d w' T2 th W (self_key_R _ _ _) L) as [Q _]; exact Q).
    assert (LR : forall T, lookup junk (at_T p T) t c w' = Ok (d, w')) by (intros T2; pose proof (LL T2 (m_th t)) as Q; rewrite same_t in Q; exact Q).
    assert (WW : w'' = w').
    { inversion P1 as [|? ? ? ? ? ? w3 ? H3 N0 N1 P3]; subst. inversion P3; subst. unfold energy_out in H3. rewrite LL in H3. cbn [bind] in H3. apply bind_ok in H3. destruct H3 as (q & _ & Q). apply ok_inj in Q. apply pair_equal_spec in Q. destruct Q as [_ Q]. symmetry. exact Q. }
    subst w''. unfold range in HE, HT', H1. rewrite LR in HE, HT', H1. cbn [bind at_T pT] in HT, HE, HT', H1.
    apply bind_ok in HE. destruct HE as (q & HE & Q). apply ok_inj in Q. apply pair_equal_spec in Q. destruct Q as [-> _]. apply bind_ok in HT'. destruct HT' as (q & HT' & Q). apply ok_inj in Q. apply pair_equal_spec in Q. destruct Q as [-> _]. apply bind_ok in H1. destruct H1 as (q & H1 & Q). apply ok_inj in Q. apply pair_equal_spec in Q. destruct Q as [-> _].
    assert (rT' = rT) by congruence. subst rT'. cbn [length total fold_right] in B1. rewrite Rplus_0_r in B1. change (INR 1) with 1 in B1. pose proof (LR (pT p)) as L0. rewrite same_p in L0.
    refine (range_steep h' w' p t c rt m d w' e1 e r1 re ((INR (length ths) + 1) * (1 / 100000)) EH' LP LT RT G AL L0 H1 HE _). fold (total ths) in B1. apply Rabs_def2 in B, B1. apply Rabs_le. lra.
  Qed.
End Library.
Print Assumptions C65_accuracy.
Print Assumptions C65_split.
