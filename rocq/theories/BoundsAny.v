(** * Absence of out-of-bounds accesses whatever the arithmetic is (support for C38 and C53 in doubles)

    The statements of BoundsProofs.v and TotalProofs.v for any instance of [Num]. What depends on the
    arithmetic (the charge number cast to int, the index in the grids) is a hypothesis here. *)
From Coq Require Import ZArith Reals List Bool Lia.
From Verif Require Import Num NumR Structures EnergyTable Spline Integrator Srim Calculations
  NucData Reactions Storage Catima GridProofs InterpProofs BoundsProofs CacheProofs
  DataElements DataSrim DataLSa DataLSahi DataLSXa DataLSXahi.
Import ListNotations.

Section Any.
Context {F : Type} {N : Num F}.

Lemma any_tab1 t i : (0 <= i < Z.of_nat (length t))%Z -> defined (tab1 (F:=F) t i).
Proof. intros H. apply defined_omap, defined_aget, H. Qed.
Lemma any_tab2 t i j k : (0 <= i < Z.of_nat (length t))%Z -> Forall (fun r => length r = k) t ->
  (0 <= j < Z.of_nat k)%Z -> defined (tab2 (F:=F) t i j).
Proof.
  intros H S J. unfold tab2. apply defined_bind; [now apply defined_aget|].
  intros r Hr. apply defined_omap, defined_aget. apply aget_ok in Hr. destruct Hr as [_ Hr].
  apply nth_error_In in Hr. rewrite Forall_forall in S. now rewrite (S r Hr).
Qed.
Lemma any_p_se_with t z e : length t = 92%nat -> Forall (fun r => length r = 8%nat) t ->
  (1 <= z)%Z -> defined (p_se_with (F:=F) t z e).
Proof.
  intros L S H. pose proof (srim_row_bounds z H) as B. unfold p_se_with. cbv zeta.
  do 8 (dbind; [apply (any_tab2 _ _ _ 8%nat); [rewrite L; lia | assumption | lia]|]).
  apply defined_Ok.
Qed.
Lemma any_srim pz tz e b : (1 <= pz <= 46340)%Z -> (1 <= tz)%Z ->
  defined (srim_dedx_e (F:=F) pz tz e b).
Proof.
  intros P T. unfold srim_dedx_e. cbv zeta.
  set (f := if b then p_se else p_se85).
  assert (Hf : forall e, defined (f tz e)).
  { intros e'. unfold f. destruct b; apply any_p_se_with; (apply pse_sizes || apply proton_sizes || exact T). }
  destruct (pz =? 1)%Z; [apply Hf|]. destruct (pz =? 2)%Z.
  - unfold srim_he. cbv zeta. dbind; [apply Hf|]. apply defined_Ok.
  - unfold srim_hi. cbv zeta.
    pose proof (srim_row_bounds tz T). pose proof (srim_row_bounds pz ltac:(lia)).
    dbind; [apply any_tab1; rewrite vfermi_size; lia|].
    dbind; [apply any_tab1; rewrite screening_size; lia|].
    rewrite imul_ok by nia. cbn [bind].
    destruct (fleb _ _); (dbind; [apply Hf|apply defined_Ok]).
Qed.
Lemma any_density beta zt : (1 <= zt)%Z -> defined (bethek_density_effect (F:=F) beta zt).
Proof.
  intros H. unfold bethek_density_effect. cbv zeta.
  set (i := ((if (zt >? 97)%Z then 97%Z else zt) - 1)%Z).
  assert (B : (0 <= i < 97)%Z).
  { unfold i. rewrite Z.gtb_ltb. destruct (Z.ltb_spec 97 zt); lia. }
  destruct density_sizes as (S1 & S2 & S3 & S4 & S5 & S6).
  dbind; [apply any_tab1; rewrite S1; lia|]. destruct (fltb _ _).
  - dbind; [apply any_tab1; rewrite S2; lia|]. apply defined_Ok.
  - dbind; [apply any_tab1; rewrite S3; lia|]. dbind; [apply any_tab1; rewrite S4; lia|].
    destruct (_ && _)%bool; [|apply defined_Ok].
    dbind; [apply any_tab1; rewrite S5; lia|]. dbind; [apply any_tab1; rewrite S6; lia|]. apply defined_Ok.
Qed.

(** the charge number of the projectile, cast to int, is covered by the tables *)
Definition any_Z (p : Projectile F) : Prop := exists z, fto_int (pZ p) = Some z /\ (1 <= z <= 108)%Z.
Definition any_targets (m : Material F) : Prop := Forall (fun t => (1 <= tZ t <= 46340)%Z) (m_atoms m).

(** the lookup in the grid of the Lindhard tables is in bounds, for every table of the right size *)
Definition any_ls (T : F) : Prop := forall tab z, (0 <= z < Z.of_nat (length tab))%Z ->
  Forall (fun r => length r = 200%nat) tab -> defined (ls_lookup (F:=F) tab z T).

Lemma any_ls_e0 : exists e0, aget (et_values (ls_energy_table (F:=F))) 0 = Ok e0.
Proof. apply defined_aget. unfold ls_energy_table, et_make. cbn [et_values]. rewrite map_length, seq_length. lia. Qed.

Lemma any_lindhard p : any_Z p -> (forall e0, aget (et_values (ls_energy_table (F:=F))) 0 = Ok e0 -> any_ls (if fltb (pT p) e0 then e0 else pT p)) ->
  defined (precalculated_lindhard (F:=F) p).
Proof.
  intros (z & E & B) G. unfold precalculated_lindhard. rewrite E. cbn [cast bind]. cbv zeta.
  replace (z >? LS_MAX_Z)%Z with false by (symmetry; rewrite Z.gtb_ltb; apply Z.ltb_ge; unfold LS_MAX_Z; lia).
  destruct any_ls_e0 as (e0 & E0). specialize (G e0 E0). rewrite E0. cbn [bind].
  destruct ls_a_sizes as [A1 A2], ls_ahi_sizes as [A3 A4].
  dbind; [apply G; auto; rewrite A1; lia|].
  dbind; [apply G; auto; rewrite A3; lia|]. apply defined_Ok.
Qed.
Lemma any_lindhard_X p : any_Z p -> any_ls (pT p) -> defined (precalculated_lindhard_X (F:=F) p).
Proof.
  intros (z & E & B) G. unfold precalculated_lindhard_X. cbv zeta. rewrite E. cbn [cast bind].
  replace (z >? LS_MAX_Z)%Z with false by (symmetry; rewrite Z.gtb_ltb; apply Z.ltb_ge; unfold LS_MAX_Z; lia).
  destruct any_ls_e0 as (e0 & E0). rewrite E0. cbn [bind]. destruct (fltb _ _); [apply defined_Ok|].
  destruct ls_Xa_sizes as [A1 A2], ls_Xahi_sizes as [A3 A4].
  dbind; [apply G; auto; rewrite A1; lia|].
  dbind; [apply G; auto; rewrite A3; lia|]. apply defined_Ok.
Qed.

Lemma any_sezi p m c : any_Z p -> any_targets m -> defined (sezi_dedx_e p m c).
Proof.
  intros (z & E & B) Tg. unfold sezi_dedx_e. cbv zeta.
  dbind; [|apply defined_Ok]. apply defined_ofold. intros b t Ht. rewrite E. cbn [cast bind].
  unfold any_targets in Tg. rewrite Forall_forall in Tg. specialize (Tg t Ht).
  dbind; [apply any_srim; lia|]. apply defined_Ok.
Qed.
Lemma any_bethek p m c : any_Z p -> any_targets m -> defined (precalculated_lindhard (F:=F) p) -> defined (bethek_dedx_e p m c).
Proof.
  intros Z Tg G. unfold bethek_dedx_e. apply defined_ofold. intros b t Ht.
  unfold any_targets in Tg. rewrite Forall_forall in Tg. specialize (Tg t Ht). cbv beta in Tg.
  dbind; [|apply defined_Ok]. unfold bethek_dedx_e_t. destruct (feqb _ _); [apply defined_Ok|].
  cbv zeta. dbind; [apply any_density; lia|].
  dbind; [destruct (negb _); [exact G | apply defined_Ok]|]. apply defined_Ok.
Qed.
Lemma any_dedx p m c : any_Z p -> any_targets m -> defined (precalculated_lindhard (F:=F) p) -> defined (dedx p m c).
Proof.
  intros Z Tg G. unfold dedx. destruct (fleb _ _); [apply defined_Ok|]. cbv zeta.
  dbind; [|apply defined_Ok].
  destruct (fleb _ _); [now apply any_sezi|]. destruct (_ && _)%bool; [|now apply any_bethek].
  dbind; [now apply any_sezi|]. dbind; [now apply any_bethek|]. apply defined_Ok.
Qed.
Lemma any_domega2dx p m c : defined (precalculated_lindhard_X (F:=F) p) -> defined (domega2dx p m c).
Proof.
  intros G. unfold domega2dx. apply defined_ofold. intros b t Ht.
  dbind; [|apply defined_Ok]. unfold dedx_variance. cbv zeta.
  dbind; [exact G|]. apply defined_Ok.
Qed.
Lemma any_radiation_z z m : (-46340 <= z <= 46340)%Z -> defined (radiation_length_z (F:=F) z m).
Proof.
  intros H. unfold radiation_length_z. destruct (zassoc radiation_table z); [apply defined_Ok|].
  rewrite imul_ok by nia. apply defined_Ok.
Qed.
Lemma any_radiation m : any_targets m -> defined (radiation_length (F:=F) m).
Proof.
  intros H. unfold radiation_length. dbind; [|apply defined_Ok]. apply defined_ofold. intros b t Ht.
  unfold any_targets in H. rewrite Forall_forall in H. specialize (H t Ht). cbv beta in H.
  dbind; [apply any_radiation_z; lia|]. apply defined_Ok.
Qed.
Lemma any_da2de p m c : any_Z p -> any_targets m -> defined (precalculated_lindhard (F:=F) p) -> defined (da2de p m c).
Proof.
  intros Z Tg G. unfold da2de. dbind.
  - unfold da2dx. dbind; [|apply defined_Ok]. unfold angular_scattering_power.
    destruct (fleb _ _); [apply defined_Ok|]. cbv zeta.
    dbind; [now apply any_radiation|apply defined_Ok].
  - dbind; [now apply any_dedx|apply defined_Ok].
Qed.

(** ** Quadrature and tables *)
Lemma any_gl_pairs nodes f p q : (forall n, In n nodes -> defined (f (p * fst n + q)%num) /\ defined (f (- p * fst n + q)%num)) ->
  forall r, defined (gl_pairs (F:=F) nodes f p q r).
Proof.
  induction nodes as [|[x w] l IH]; intros H r; simpl; [apply defined_Ok|].
  destruct (H (x, w) (or_introl eq_refl)) as [H1 H2]. simpl in H1, H2.
  dbind; [exact H1|]. dbind; [exact H2|]. apply IH. intros n Hn. apply H. now right.
Qed.
Lemma any_integrate f a b : let p := (lit 0.5 * (b - a))%num in let q := (lit 0.5 * (b + a))%num in
  (forall n, In n GL8_nodes -> defined (f (p * fst n + q)%num) /\ defined (f (- p * fst n + q)%num)) ->
  defined (integrate (F:=F) f a b).
Proof.
  intros p q H. unfold integrate, gl_integrate. change (Nat.odd 8) with false. cbv iota zeta.
  dbind; [|apply defined_Ok]. apply any_gl_pairs. exact H.
Qed.
Lemma any_accumulate (step : F -> F -> outcome F) d0 :
  forall rest lo prev,
  (forall i, (i < length rest)%nat -> defined (step (nth i (lo :: rest) d0) (nth (S i) (lo :: rest) d0))) ->
  exists l, accumulate step lo rest prev = Ok l /\ length l = length rest.
Proof.
  induction rest as [|hi rest IH]; intros lo prev H; simpl.
  - exists []. auto.
  - destruct (H 0%nat) as [r E]. { simpl; lia. } cbn [nth] in E. rewrite E. cbn [bind].
    destruct (IH hi (r + prev)%num) as (l & E' & L).
    { intros i Hi. apply (H (Datatypes.S i)). simpl; lia. }
    rewrite E'. cbn [bind]. eexists; split; [reflexivity|]. simpl. now rewrite L.
Qed.
Lemma any_table (step : F -> F -> outcome F) d0 g : (1 <= length g)%nat ->
  (forall i, (S i < length g)%nat -> defined (step (nth i g d0) (nth (S i) g d0))) ->
  exists l, table step g = Ok l /\ length l = length g.
Proof.
  intros L H. unfold table. destruct g as [|g0 rest]; [simpl in L; lia|].
  destruct (any_accumulate step d0 rest g0 (lit 0.0)) as (l & -> & Hl).
  { intros i Hi. apply H. simpl. lia. }
  cbn [bind]. eexists. split; [reflexivity|]. simpl. lia.
Qed.

(** ** Splines *)
Lemma any_inner_rows : forall xs ys : list F, length xs = length ys ->
  length (inner_rows xs ys) = (length xs - 2)%nat.
Proof.
  induction xs as [|xm xs IH]; intros [|ym ys] H; simpl in H; try discriminate; try reflexivity.
  destruct xs as [|x0 [|xp xs]], ys as [|y0 [|yp ys]]; simpl in H; try discriminate; try reflexivity.
  specialize (IH (y0 :: yp :: ys) ltac:(simpl; lia)).
  change (inner_rows (xm :: x0 :: xp :: xs) (ym :: y0 :: yp :: ys))
    with (mkRow (lit 1.0 / lit 3.0 * (xp - x0))%num (lit 2.0 / lit 3.0 * (xp - xm))%num
              (lit 1.0 / lit 3.0 * (x0 - xm))%num
              ((yp - y0) / (xp - x0) - (y0 - ym) / (x0 - xm))%num
          :: inner_rows (x0 :: xp :: xs) (y0 :: yp :: ys)).
  simpl length in *. lia.
Qed.
Lemma any_trig_back : forall l (x : F), length (trig_back x l) = S (length l).
Proof. induction l as [|[g x'] l IH]; intros x; simpl; auto. Qed.
Lemma any_trig_forward : forall rows (c b x : F) l, trig_forward c b x rows = Some l -> length l = length rows.
Proof.
  induction rows as [|r rows IH]; intros c b x l H; simpl in H.
  - now inversion H.
  - destruct (feqb _ _); [discriminate|].
    match type of H with match ?T with _ => _ end = _ => destruct T eqn:E end; [|discriminate]. inversion H; subst. simpl. f_equal. eauto.
Qed.
Lemma any_trig_solve (rows : list (row F)) r0 rows' : rows = r0 :: rows' -> feqb (rd r0) (lit 0.0) = false ->
  exists b, trig_solve rows = Ok b /\ length b = length rows.
Proof.
  intros -> H. unfold trig_solve. rewrite H.
  destruct (trig_forward _ _ _ _) as [l|] eqn:T.
  - eexists; split; [reflexivity|]. rewrite any_trig_back. apply any_trig_forward in T. simpl. lia.
  - eexists; split; [reflexivity|]. apply repeat_length.
Qed.
Lemma any_spline_ac : forall xs ys bs : list F, length xs = length ys -> length xs = length bs ->
  length (spline_ac xs ys bs) = (length xs - 1)%nat.
Proof.
  induction xs as [|x0 xs IH]; intros [|y0 ys] [|b0 bs] H1 H2; simpl in H1, H2; try discriminate; try reflexivity.
  destruct xs as [|x1 xs], ys as [|y1 ys], bs as [|b1 bs]; simpl in H1, H2; try discriminate; try reflexivity.
  specialize (IH (y1 :: ys) (b1 :: bs) ltac:(simpl; lia) ltac:(simpl; lia)).
  simpl spline_ac in *. simpl length in *. lia.
Qed.
Lemma any_set_last : forall (l : list F) v, length (set_last l v) = length l.
Proof. induction l as [|x [|y l] IH]; intros v; simpl; auto. f_equal. apply IH. Qed.
Lemma any_spline_rows (xs ys : list F) j : length xs = length ys -> (2 <= length xs)%nat ->
  length (spline_rows xs ys j) = length xs.
Proof.
  intros H L. unfold spline_rows. simpl. rewrite app_length, any_inner_rows by assumption. simpl. lia.
Qed.

Definition any_spline (s : spline F) : Prop :=
  sp_table s = energy_table /\ (600 <= length (sp_y s))%nat /\ length (sp_a s) = 600%nat /\
  length (sp_b s) = 600%nat /\ length (sp_c s) = 600%nat.
Lemma any_grid_length : length (et_values (energy_table (F:=F))) = 600%nat.
Proof. unfold energy_table, et_make. cbn [et_values]. rewrite map_length, seq_length. reflexivity. Qed.
Lemma any_make_spline y j : feqb (lit (Num:=N) 2.0) (lit 0.0) = false -> length y = 600%nat ->
  exists s, make_spline energy_table y j = Ok s /\ any_spline s /\ sp_y s = y.
Proof.
  intros N2 L. unfold make_spline.
  pose proof any_grid_length as GL.
  assert (EN : et_n (energy_table (F:=F)) = 600%nat) by reflexivity.
  rewrite EN, L. change (600 <? 600)%nat with false. cbv iota zeta.
  remember (et_values energy_table) as xs eqn:Exs. rewrite firstn_all2 by lia.
  assert (RL : length (spline_rows xs y j) = 600%nat) by (rewrite any_spline_rows; lia).
  destruct (any_trig_solve (spline_rows xs y j) (mkRow (lit 0.0) (lit 2.0) (fst j) (lit 0.0))
    (inner_rows xs y ++ [mkRow (snd j) (lit 2.0) (lit 0.0) (lit 0.0)])) as (b & -> & BL).
  { reflexivity. }
  { exact N2. }
  cbn [bind]. eexists. split; [reflexivity|]. split; [|reflexivity].
  assert (AC : length (spline_ac xs y b) = 599%nat) by (rewrite any_spline_ac; lia).
  unfold any_spline; cbn [sp_table sp_y sp_a sp_b sp_c].
  rewrite any_set_last, !app_length, !map_length, AC. cbn [length].
  repeat split; lia.
Qed.

(** the lookup in the grid of the splines is in bounds *)
Definition any_index (x : F) : Prop := exists i, et_index (energy_table (F:=F)) x = Ok i /\ (-1 <= i <= 599)%Z.

Lemma any_spline_eval s x : any_spline s -> any_index x -> defined (spline_eval s x).
Proof.
  intros (T & L1 & L2 & L3 & L4) (i & E & B). unfold spline_eval. rewrite T, E. cbn [bind]. cbv zeta.
  assert (EN : et_n (energy_table (F:=F)) = 600%nat) by reflexivity.
  rewrite EN. change (Z.of_nat 600) with 600%Z. pose proof any_grid_length as GL.
  assert (IB : (0 <= Z.max i 0 <= 599)%Z) by lia.
  dbind; [apply defined_aget; rewrite GL; lia|].
  dbind; [apply defined_aget; rewrite GL; lia|].
  dbind; [apply defined_aget; rewrite GL; lia|].
  destruct (fltb _ _). { dbind; [apply defined_aget; lia|]. apply defined_Ok. }
  destruct (fltb _ _); repeat (dbind; [apply defined_aget; lia|]); apply defined_Ok.
Qed.
Lemma any_spline_deriv s x : any_spline s -> any_index x -> defined (spline_deriv s x).
Proof.
  intros (T & L1 & L2 & L3 & L4) (i & E & B). unfold spline_deriv. rewrite T, E. cbn [bind]. cbv zeta.
  assert (EN : et_n (energy_table (F:=F)) = 600%nat) by reflexivity.
  rewrite EN. change (Z.of_nat 600) with 600%Z. pose proof any_grid_length as GL.
  assert (IB : (0 <= Z.max i 0 <= 599)%Z) by lia.
  dbind; [apply defined_aget; rewrite GL; lia|].
  dbind; [apply defined_aget; rewrite GL; lia|].
  dbind; [apply defined_aget; rewrite GL; lia|].
  destruct (fltb _ _). { apply defined_Ok. }
  destruct (fltb _ _); repeat (dbind; [apply defined_aget; lia|]); apply defined_Ok.
Qed.

Definition any_dp (d : DataPoint F) : Prop :=
  exists s1 s2 s3, dp_range_spline d = Some s1 /\ dp_rs_spline d = Some s2 /\
    dp_av_spline d = Some s3 /\ any_spline s1 /\ any_spline s2 /\ any_spline s3.
Definition any_tables (p : Projectile F) (t : Material F) (c : Config F) : Prop :=
  exists r s a, range_table p t c = Ok r /\ straggling_table p t c = Ok s /\ angular_table p t c = Ok a /\
    length r = 600%nat /\ length s = 600%nat /\ length a = 600%nat.
Lemma any_rcalc junk k p t c : feqb (lit (Num:=N) 2.0) (lit 0.0) = false -> any_tables p t c ->
  exists d, rcalc junk calculate_DataPoint k p t c = Ok d /\ any_dp d.
Proof.
  intros N2 (r & s & a & Er & Es & Ea & Lr & Ls & La). unfold rcalc, calculate_DataPoint.
  rewrite Er, Ea, Es.
  cbn [bind]. unfold with_splines. cbn [dp_range dp_rs dp_av].
  destruct (any_make_spline r (junk k) N2 Lr) as (s1 & -> & O1 & _).
  destruct (any_make_spline s (junk (k + 1)%nat) N2 Ls) as (s2 & -> & O2 & _).
  destruct (any_make_spline a (junk (k + 2)%nat) N2 La) as (s3 & -> & O3 & _).
  cbn [bind]. eexists; split; [reflexivity|]. exists s1, s2, s3. simpl. auto 10.
Qed.

(** ** Lookups *)
Section World.
Variable junk : nat -> F * F.
Definition any_world (w : world F) : Prop :=
  wf w /\ Forall (fun d => d = DataPoint0 \/ any_dp d) (w_slots w).
Lemma any_world0 : any_world world0.
Proof. split; [apply wf_world0|]. apply Forall_forall. intros x Hx. left. now apply repeat_spec in Hx. Qed.
Lemma any_world_reset w : any_world (data_reset w).
Proof. split; [apply wf_reset|]. apply Forall_forall. intros x Hx. left. now apply repeat_spec in Hx. Qed.
Lemma any_lookup p t c w : feqb (lit (Num:=N) 2.0) (lit 0.0) = false -> any_tables p t c -> key_match p t c DataPoint0 = false -> any_world w ->
  exists d w', lookup junk p t c w = Ok (d, w') /\ any_dp d /\ any_world w' /\ w_default w' = w_default w.
Proof.
  intros N2 TB ND [W V]. unfold lookup.
  destruct (any_rcalc junk (w_junk w) p t c N2 TB) as (d' & R' & OK).
  destruct (get_spec junk calculate_DataPoint w p t c W) as
    [(i & e & G & Hi & E & M)|(NM & [(why & R & G)|(d & R & G & E)])].
  - rewrite G. cbn [bind]. unfold slot. rewrite E. cbn [bind]. exists e, w.
    split; [reflexivity|]. split; [|split; [split; auto|reflexivity]].
    eapply Forall_forall in V; [|eapply nth_error_In; exact E].
    destruct V as [->|V]; auto. rewrite ND in M. discriminate.
  - congruence.
  - rewrite R in R'. inversion R'; subst d'.
    rewrite G. cbn [bind]. unfold slot. rewrite E. cbn [bind]. exists d. eexists.
    split; [reflexivity|]. split; [exact OK|]. split; [split|reflexivity].
    + apply wf_inserted; auto.
    + simpl. apply Forall_set_slot; auto.
Qed.
End World.
End Any.
