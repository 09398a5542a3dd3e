(** * C65: the energy behind a layer: thin layers, thicker layers and faster ions *)
From Coq Require Import ZArith Reals List Bool Lra Lia.
From Verif Require Import Num NumR Structures DataQuadrature EnergyTable Spline Integrator Calculations Storage Catima Cases CacheProofs CacheFresh History KeyEq ApiCache
  EnergyOutProofs LayerProofs GridProofs SplineProofs SplineMono QuadProofs TotalProofs ApiTotal PropGrid PropSpline PropQuad PropTables PropCache PropEnergyOut PropResult PropApi PropMono PropMonoApi.
Import ListNotations.
Local Open Scope R_scope.

(** ** Thin layers *)
Section Thin.
  Variables (y : list R) (jk : R * R) (s : spline R).
  Hypothesis J0 : Rabs (fst jk) < 2.
  Hypothesis J1 : Rabs (snd jk) < 2.
  Hypothesis MS : make_spline energy_table y jk = Ok s.
  Hypothesis GEN : gentle energy_table y.
  Lemma made' : make_spline (et_make 600 (-3) 7) y jk = Ok s.
  Proof. rewrite <- energy_table_eq. exact MS. Qed.
  Lemma gen' : gentle (et_make 600 (-3) 7) y.
  Proof. rewrite <- energy_table_eq. exact GEN. Qed.

  (** between two grid energies the code evaluates the piece of the left one *)
  Lemma in_cell i x : (S i < 600)%nat -> energy i <= x < energy (S i) - numeric_epsilon ->
    spline_eval s x = Ok (piece 600 (-3) 7 s i x) /\ spline_deriv s x = Ok (slope 600 (-3) 7 s i x).
  Proof.
    intros I XI. pose proof eps_pos as EP. rewrite !energy_G in XI by lia.
    assert (LE : forall a b, (a <= b)%nat -> gval 600 (-3) 7 (INR a) <= gval 600 (-3) 7 (INR b)) by (intros a b AB; apply gval_le; [lia|lra|apply le_INR; exact AB]).
    pose proof (LE 0%nat i ltac:(lia)) as X0.
    destruct (choose 600 (-3) 7 ltac:(lia) ltac:(lia) ltac:(lra) x) as [H|(k & E & B & C)]; [lra|].
    assert (k = i).
    { destruct (Nat.lt_trichotomy k i) as [Q|[Q|Q]]; [exfalso|exact Q|exfalso].
      - pose proof (LE (S k) i ltac:(lia)). pose proof (LE k i ltac:(lia)). destruct C as [[_ C]|[C _]]; [specialize (C ltac:(lia)); lra|lra].
      - pose proof (LE (S i) k ltac:(lia)). destruct C as [[C _]|[C _]]; lra. }
    subst k. apply (eval_piece 600 (-3) 7 ltac:(lia) y jk s made' x i); [lra|exact E|exact B|]. intros Q. pose proof (LE (S i) (600 - 1)%nat ltac:(lia)). lra.
  Qed.

  (** a piece leaves its tangent by at most 83 percent of the chord times the square of the step, in units of the interval *)
  Lemma tangent i x z : (S i < 600)%nat -> energy i <= z -> z <= x -> x <= energy (S i) ->
    Rabs (piece 600 (-3) 7 s i x - piece 600 (-3) 7 s i z - slope 600 (-3) 7 s i x * (x - z)) <=
    83 / 100 * chord_slope energy_table y i / (energy (S i) - energy i) * ((x - z) * (x - z)).
  Proof.
    intros I Z ZX XE. rewrite !energy_G in * by lia. rewrite energy_table_eq.
    destruct (whole_weights 600 (-3) 7 ltac:(lia) y gen') as (K1 & W0 & WV & WC).
    destruct (system 600 (-3) 7 ltac:(lia) ltac:(lra) library_fine y jk s J0 J1 made' (chord_slope (et_make 600 (-3) 7) y) 599 K1 W0 WV WC) as (b & A & B).
    destruct (B i ltac:(lia)) as [B1 B2]. pose proof (et_values_length 600 (-3) 7) as LV. pose proof (ar_sa _ _ _ _ A i ltac:(lia)) as SA. pose proof (ar_sb _ _ _ _ A i ltac:(lia)) as SB.
    rewrite !X_nth in SA by lia. replace (i + 1)%nat with (S i) in SA by lia. unfold piece, slope. cbv zeta. rewrite SA, SB. clear SA SB A B WV WC K1. specialize (W0 i ltac:(lia)).
    set (sg := chord_slope (et_make 600 (-3) 7) y i) in *. set (p := gval 600 (-3) 7 (INR i)) in *. set (q := gval 600 (-3) 7 (INR (S i))) in *. set (b0 := nth i b 0) in *. set (b1 := nth (S i) b 0) in *. set (c0 := nth i (sp_c s) 0). set (y0 := nth i (sp_y s) 0).
    assert (H : 0 < q - p) by (pose proof (energy_incr i I) as EI; rewrite !energy_G in EI by lia; fold p q in EI; lra). clearbody sg p q b0 b1 c0 y0.
    set (m := ((x - p) * 2 + (z - p)) / (3 * (q - p))). assert (M : 0 <= m <= 1).
    { unfold m. split; [apply Rmult_le_pos; [lra|left; apply Rinv_0_lt_compat; lra]|]. apply (Rmult_le_reg_r (3 * (q - p))); [lra|]. unfold Rdiv. rewrite Rmult_assoc, Rinv_l by lra. lra. }
    match goal with |- Rabs ?e <= _ => replace e with (- ((b0 * (1 - m) + b1 * m) * ((x - z) * (x - z)))) by (unfold m; field; lra) end.
    rewrite Rabs_Ropp, Rabs_mult, (Rabs_pos_eq ((x - z) * (x - z))) by (apply Rle_0_sqr). apply Rmult_le_compat_r; [apply Rle_0_sqr|].
    apply (Rmult_le_reg_r (q - p)); [exact H|]. replace (83 / 100 * sg / (q - p) * (q - p)) with (83 / 100 * sg) by (field; lra). clearbody m.
    apply Rle_trans with ((Rabs b0 * (1 - m) + Rabs b1 * m) * (q - p)).
    - apply Rmult_le_compat_r; [lra|]. eapply Rle_trans; [apply Rabs_triang|]. rewrite !Rabs_mult, (Rabs_pos_eq m), (Rabs_pos_eq (1 - m)) by lra. lra.
    - replace ((Rabs b0 * (1 - m) + Rabs b1 * m) * (q - p)) with (Rabs b0 * (q - p) * (1 - m) + Rabs b1 * (q - p) * m) by ring.
      apply Rle_trans with (83 / 100 * sg * (1 - m) + 83 / 100 * sg * m); [|right; ring]. apply Rplus_le_compat; apply Rmult_le_compat_r; lra.
  Qed.

  Lemma cell_slope i x : (S i < 600)%nat -> energy i <= x <= energy (S i) -> 0 < chord_slope energy_table y i /\
    15 / 100 * chord_slope energy_table y i <= slope 600 (-3) 7 s i x <= 185 / 100 * chord_slope energy_table y i.
  Proof.
    intros I XI. rewrite !energy_G in * by lia. rewrite energy_table_eq. destruct (whole_weights 600 (-3) 7 ltac:(lia) y gen') as (K1 & W0 & WV & WC).
    pose proof (piece_slope 600 (-3) 7 ltac:(lia) ltac:(lra) library_fine y jk s J0 J1 made' (chord_slope (et_make 600 (-3) 7) y) 599 K1 W0 WV WC ltac:(reflexivity) i x ltac:(lia)) as PS.
    assert (H : 0 < gval 600 (-3) 7 (INR (S i)) - gval 600 (-3) 7 (INR i)) by (pose proof (energy_incr i I) as EI; rewrite !energy_G in EI by lia; lra).
    specialize (PS ltac:(lra)). apply abs_in in PS. split; [apply W0; lia|lra].
  Qed.
  Lemma entry_pos i : 0 <= nth 0 y 0 -> (1 <= i < 600)%nat -> 0 < nth i y 0.
  Proof.
    intros Y0. induction i as [|i IH]; intros I; [lia|]. destruct (cell_slope i (energy i) ltac:(lia)) as [P _]; [pose proof (energy_incr i ltac:(lia)); lra|].
    unfold chord_slope in P. fold (energy (S i)) (energy i) in P. pose proof (energy_incr i ltac:(lia)) as EI. assert (0 < nth (S i) y 0 - nth i y 0).
    { replace (nth (S i) y 0 - nth i y 0) with ((nth (S i) y 0 - nth i y 0) / (energy (S i) - energy i) * (energy (S i) - energy i)) by (field; lra). apply Rmult_lt_0_compat; lra. }
    destruct i as [|i]; [lra|]. specialize (IH ltac:(lia)). lra.
  Qed.

  (** a layer so thin that the ion stays in its interval of the grid, and that 37 times the square of the thickness is less than the tolerance of the search times the range the interval is long:
      the search ends at its first point, and the energy lost is the thickness over the slope of the range *)
  Theorem C65_thin_layer i T th : 0 <= nth 0 y 0 -> (1 <= i)%nat -> (S i < 600)%nat -> energy i <= T < energy (S i) - numeric_epsilon -> 0 <= th ->
    th <= 15 / 100 * chord_slope energy_table y i * (T - energy i) -> 37 * (th * th) <= 1 / 100000 * (nth (S i) y 0 - nth i y 0) ->
    exists d, spline_deriv s T = Ok d /\ 15 / 100 * chord_slope energy_table y i <= d <= 185 / 100 * chord_slope energy_table y i /\ energy_out_sp (Some s) T th = Ok (T - th / d).
  Proof.
    intros Y0 I1 I TT TP TL TQ. pose proof eps_pos as EP. pose proof (energy_incr i I) as EI. destruct (in_cell i T I TT) as [ET DT]. destruct (cell_slope i T I ltac:(lra)) as [SP SB].
    set (d := slope 600 (-3) 7 s i T) in *. exists d. split; [exact DT|]. split; [exact SB|]. set (sg := chord_slope energy_table y i) in *. assert (D0 : 0 < d) by lra.
    assert (TD : 0 <= th / d <= T - energy i).
    { split; [apply Rmult_le_pos; [lra|left; apply Rinv_0_lt_compat; lra]|]. apply (Rmult_le_reg_r d); [exact D0|]. unfold Rdiv. rewrite Rmult_assoc, Rinv_l, Rmult_1_r by lra.
      apply Rle_trans with (15 / 100 * sg * (T - energy i)); [exact TL|]. rewrite Rmult_comm. apply Rmult_le_compat_l; lra. }
    set (e := T - th / d) in *. destruct (in_cell i e I ltac:(unfold e; lra)) as [EE _]. pose proof (tangent i T e I ltac:(unfold e; lra) ltac:(unfold e; lra) ltac:(lra)) as TG. fold d sg in TG.
    assert (RT : th < piece 600 (-3) 7 s i T).
    { pose proof (entry_pos i Y0 ltac:(lia)) as YP. destruct (made_arrays 600 (-3) 7 ltac:(lia) y jk s made') as (_ & _ & SY & _).
      assert (P0 : piece 600 (-3) 7 s i (energy i) = nth i y 0) by (unfold piece; cbv zeta; rewrite energy_G by lia; rewrite Rminus_diag_eq by reflexivity; rewrite Rmult_0_r, SY; ring).
      destruct (Req_dec (energy i) T) as [Q|Q]; [rewrite <- Q, P0; apply Rle_lt_trans with 0; [|exact YP]; replace (T - energy i) with 0 in TL by lra; lra|].
      destruct (MVT_cor2 (piece 600 (-3) 7 s i) (slope 600 (-3) 7 s i) (energy i) T ltac:(lra)) as (x & E & C); [intros x C; apply piece_deriv|]. destruct (cell_slope i x I ltac:(lra)) as [_ SX]. fold sg in SX.
      assert (15 / 100 * sg * (T - energy i) <= slope 600 (-3) 7 s i x * (T - energy i)) by (apply Rmult_le_compat_r; lra). lra. }
    assert (SG : nth (S i) y 0 - nth i y 0 = sg * (energy (S i) - energy i)) by (unfold sg, chord_slope; fold (energy (S i)) (energy i); field; lra). rewrite SG in TQ.
    replace (d * (T - e)) with th in TG by (unfold e; field; lra). replace (T - e) with (th / d) in TG by (unfold e; ring).
    assert (CL : Rabs (piece 600 (-3) 7 s i T - piece 600 (-3) 7 s i e - th) < 1 / 100000).
    { eapply Rle_lt_trans; [exact TG|]. set (h := energy (S i) - energy i) in *. assert (H : 0 < h) by (unfold h; lra). clearbody h sg d. clear - TQ SP SB D0 H.
      assert (DD : 0 < / d <= / (15 / 100 * sg)) by (split; [apply Rinv_0_lt_compat; lra|apply Rinv_le_contravar; lra]).
      assert (D2 : / d * / d <= / (15 / 100 * sg) * / (15 / 100 * sg)) by (apply Rmult_le_compat; lra).
      apply Rle_lt_trans with (83 / 100 * sg / h * (th * th * (/ (15 / 100 * sg) * / (15 / 100 * sg)))).
      - apply Rmult_le_compat_l; [apply Rmult_le_pos; [lra|left; apply Rinv_0_lt_compat; lra]|]. replace (th / d * (th / d)) with (th * th * (/ d * / d)) by (unfold Rdiv; ring). apply Rmult_le_compat_l; [apply Rle_0_sqr|exact D2].
      - replace (83 / 100 * sg / h * (th * th * (/ (15 / 100 * sg) * / (15 / 100 * sg)))) with (8300 / 225 * (th * th) / (sg * h)) by (field; lra).
        assert (SH : 0 < sg * h) by (apply Rmult_lt_0_compat; assumption). apply (Rmult_lt_reg_r (sg * h)); [exact SH|]. replace (8300 / 225 * (th * th) / (sg * h) * (sg * h)) with (8300 / 225 * (th * th)) by (field; lra). lra. }
    unfold energy_out_sp, energy_out_fn. cbn [interp_eval interp_deriv]. rewrite ET. cbn [bind]. rewrite DT. cbn [bind]. cbv zeta. numR. fold d.
    destruct (Rleb_spec (piece 600 (-3) 7 s i T) th) as [X|_]; [lra|]. replace (T - th * (Rlit 1.0 / d)) with e by (unfold e; replace (Rlit 1.0) with 1 by (dec_norm; lra); unfold Rdiv; ring).
    assert (NW : forall k dd, newton (F:=R) (spline_eval s) (spline_deriv s) (piece 600 (-3) 7 s i T) th k e dd = Ok e).
    { intros k dd. destruct k; cbn [newton]; rewrite EE; cbn [bind]; cbv zeta; numR.
      all: match goal with |- (if Rltb ?a ?b then _ else _) = _ => assert (L : a < b); [|destruct (Rltb_spec a b); [reflexivity|lra]] end.
      all: unfold Eout_th_epsilon; numR; eapply Rlt_le_trans; [exact CL|]; right; dec_norm; lra. }
    apply NW.
  Qed.
End Thin.
Print Assumptions C65_thin_layer.

(** ** The library *)
Section Library.
  Variable junk : nat -> R * R.
  Hypothesis SJ : small_junk junk.
  (** after any calls a thin layer takes from the ion its thickness times the stopping power that dedx_from_range gives, divided by the mass number *)
  Theorem C65_thin_energy_out h w p t c rt i e w1 d w2 : exec_all junk h world0 = Ok w -> legit_p p -> legit_t t -> range_table p t c = Ok rt -> gentle energy_table rt ->
    (1 <= i)%nat -> (S i < 600)%nat -> energy i <= pT p < energy (S i) - numeric_epsilon -> 0 <= m_th t ->
    m_th t <= 15 / 100 * chord_slope energy_table rt i * (pT p - energy i) -> 37 * (m_th t * m_th t) <= 1 / 100000 * (nth (S i) rt 0 - nth i rt 0) ->
    energy_out junk p t c w = Ok (e, w1) -> dedx_from_range junk p t c w1 = Ok (d, w2) -> e = pT p - m_th t * d / pA p.
  Proof.
    intros EH LP LT RT G I1 I TT TP TL TQ H D. pose proof (exec_all_wf junk h w EH) as W. unfold energy_out in H. apply bind_ok in H. destruct H as ([dp w3] & L & H). apply bind_ok in H. destruct H as (e' & H & Q). apply ok_inj in Q. apply pair_equal_spec in Q. destruct Q as [<- <-].
    destruct (lookup_made junk h w p t c dp w3 EH LP LT L) as (RT' & k & s & MS & SP). assert (rt = dp_range dp) by congruence. subst rt. rewrite SP in H.
    pose proof (laterE junk p t c w dp w3 W L (pT p)) as L2. rewrite same_p in L2. unfold dedx_from_range in D. rewrite L2 in D. cbn [bind] in D. rewrite SP in D. cbn [interp_deriv] in D. apply bind_ok in D. destruct D as (dr & DR & D). apply ok_inj in D. apply pair_equal_spec in D. destruct D as [<- _].
    destruct (SJ k) as [J0 J1]. pose proof (scaled_nth _ _ _ RT) as (_ & Z0 & _). assert (Y0 : 0 <= nth 0 (dp_range dp) 0) by (rewrite Z0; lra).
    destruct (C65_thin_layer (dp_range dp) (junk k) s J0 J1 MS G i (pT p) (m_th t) Y0 I1 I TT TP TL TQ) as (d' & DD & DB & EO). assert (d' = dr) by congruence. subst d'. assert (e' = pT p - m_th t / dr) by congruence. subst e'.
    numR. field. destruct G as [G _]. specialize (G i I). destruct LP as [_ AP]. split; lra.
  Qed.

  (** two ions and two layers of one material, one after the other: if the first has more than two tolerances less range left, it has less energy left, up to 20 tolerances of the grid *)
  Theorem C65_range_left h w p t c rt T1 T2 th1 th2 e1 w1 e2 w2 r1 w3 r2 w4 : exec_all junk h world0 = Ok w -> legit_p p -> range_table p t c = Ok rt -> gentle energy_table rt ->
    energy_out junk (at_T p T1) (set_thickness t th1) c w = Ok (e1, w1) -> energy_out junk (at_T p T2) (set_thickness t th2) c w1 = Ok (e2, w2) -> e1 <> 0 -> e1 <> -1 -> e2 <> 0 -> e2 <> -1 ->
    range junk (at_T p T1) t c w2 = Ok (r1, w3) -> range junk (at_T p T2) t c w3 = Ok (r2, w4) ->
    (r1 - th1 + 2 / 100000 <= r2 - th2 -> e1 < e2 + 20 * numeric_epsilon) /\ (r2 - th2 + 2 / 100000 <= r1 - th1 -> e2 < e1 + 20 * numeric_epsilon).
  Proof.
    intros EH LP RT G H1 H2 N1 M1 N2 M2 R1 R2. pose proof (exec_all_wf junk h w EH) as W.
    unfold energy_out in H1. apply bind_ok in H1. destruct H1 as ([d w5] & L & H1). apply bind_ok in H1. destruct H1 as (x & H1 & Q). apply ok_inj in Q. apply pair_equal_spec in Q. destruct Q as [-> ->].
    assert (LL : forall T th, lookup junk (at_T p T) (set_thickness t th) c w1 = Ok (d, w1)).
    { intros T th. destruct (lookup_again junk w (at_T p T1) (set_thickness t th1) c d w1 T th W (self_key_R _ _ _) L) as [Q _]. exact Q. }
    unfold energy_out in H2. rewrite LL in H2. cbn [bind] in H2. apply bind_ok in H2. destruct H2 as (x & H2 & Q). apply ok_inj in Q. apply pair_equal_spec in Q. destruct Q as [-> <-].
    assert (LR : forall T, lookup junk (at_T p T) t c w1 = Ok (d, w1)) by (intros T; pose proof (LL T (m_th t)) as Q; rewrite same_t in Q; exact Q).
    unfold range in R1. rewrite LR in R1. cbn [bind] in R1. apply bind_ok in R1. destruct R1 as (x & R1 & Q). apply ok_inj in Q. apply pair_equal_spec in Q. destruct Q as [-> <-].
    unfold range in R2. rewrite LR in R2. cbn [bind] in R2. apply bind_ok in R2. destruct R2 as (x & R2 & Q). apply ok_inj in Q. apply pair_equal_spec in Q. destruct Q as [-> _].
    cbn [at_T pT] in R1, R2, H1, H2. unfold energy_out_sp in H1, H2. apply C08_class in H1, H2. cbn [set_thickness m_th] in H1, H2.
    destruct H1 as (u1 & U1 & [[_ Q]|[_ [Q|[Q|(v1 & V1 & B1)]]]]); try contradiction. destruct H2 as (u2 & U2 & [[_ Q]|[_ [Q|[Q|(v2 & V2 & B2)]]]]); try contradiction.
    assert (u1 = r1) by congruence. assert (u2 = r2) by congruence. subst u1 u2. apply Rabs_def2 in B1, B2.
    pose proof (range_far junk SJ h w EH (at_T p T1) (set_thickness t th1) c (legit_at _ _ LP) rt RT G d w1) as RF.
    split; intros C; apply Rnot_le_lt; intros E; [destruct (RF e2 e1 L E) as (a & b & A & B & AB)|destruct (RF e1 e2 L E) as (a & b & A & B & AB)].
    - assert (a = v2) by congruence. assert (b = v1) by congruence. subst. lra.
    - assert (a = v1) by congruence. assert (b = v2) by congruence. subst. lra.
  Qed.
  (** a thicker layer leaves less energy *)
  Theorem C65_thicker_layer h w p t c rt T th1 th2 e1 w1 e2 w2 : exec_all junk h world0 = Ok w -> legit_p p -> range_table p t c = Ok rt -> gentle energy_table rt ->
    energy_out junk (at_T p T) (set_thickness t th1) c w = Ok (e1, w1) -> energy_out junk (at_T p T) (set_thickness t th2) c w1 = Ok (e2, w2) -> e1 <> 0 -> e1 <> -1 -> e2 <> 0 -> e2 <> -1 ->
    th1 + 2 / 100000 <= th2 -> e2 < e1 + 20 * numeric_epsilon.
  Proof.
    intros EH LP RT G H1 H2 N1 M1 N2 M2 LE. pose proof (exec_all_wf junk h w EH) as W.
    assert (RR : exists r, range junk (at_T p T) t c w2 = Ok (r, w2)).
    { assert (E1 : exec_all junk (h ++ [CEnergyOut (at_T p T) (set_thickness t th1) c]) world0 = Ok w1) by (eapply exec_all_snoc; [exact EH|]; unfold exec, one; rewrite H1; reflexivity).
      destruct (C08_api junk _ w1 (at_T p T) (set_thickness t th2) c e2 w2 E1 H2) as (r & Q & _). exists r. unfold range in Q |- *. apply bind_ok in Q. destruct Q as ([d w5] & L & Q). 
      assert (W2 : wf w2) by (apply (exec_all_wf junk ((h ++ [CEnergyOut (at_T p T) (set_thickness t th1) c]) ++ [CEnergyOut (at_T p T) (set_thickness t th2) c])); eapply exec_all_snoc; [exact E1|]; unfold exec, one; rewrite H2; reflexivity).
      apply bind_ok in Q. destruct Q as (x & Q & QQ). apply ok_inj in QQ. apply pair_equal_spec in QQ. destruct QQ as [-> ->].
      destruct (lookup_again junk w2 (at_T p T) (set_thickness t th2) c d w2 T (m_th t) W2 (self_key_R _ _ _) L) as [L' _]. change (at_T (at_T p T) T) with (at_T p T) in L'. change (set_thickness (set_thickness t th2) (m_th t)) with (set_thickness t (m_th t)) in L'. rewrite same_t in L'.
      rewrite L'. cbn [bind]. rewrite Q. reflexivity. }
    destruct RR as (r & RR). destruct (C65_range_left h w p t c rt T T th1 th2 e1 w1 e2 w2 r w2 r w2 EH LP RT G H1 H2 N1 M1 N2 M2 RR RR) as [_ Q]. apply Q. lra.
  Qed.
End Library.
Print Assumptions C65_thin_energy_out.
Print Assumptions C65_range_left.
Print Assumptions C65_thicker_layer.
