(** * Absence of out-of-bounds accesses, over the reals (support for C01, C38) *)
From Coq Require Import ZArith Reals List Bool Lra Lia.
From Verif Require Import Num NumR Structures EnergyTable Spline Integrator Srim Calculations
  NucData Reactions Storage GridProofs InterpProofs
  DataElements DataSrim DataLSa DataLSahi DataLSXa DataLSXahi.
Import ListNotations.
Local Open Scope R_scope.

Definition defined {A} (x : outcome A) : Prop := exists a, x = Ok a.

Lemma defined_Ok {A} (a : A) : defined (Ok a).
Proof. now exists a. Qed.
Lemma defined_bind {A B} (x : outcome A) (f : A -> outcome B) :
  defined x -> (forall a, x = Ok a -> defined (f a)) -> defined (bind x f).
Proof. intros [a ->] H. now apply H. Qed.
Lemma defined_omap {A B} (f : A -> B) x : defined x -> defined (omap f x).
Proof. intros [a ->]. simpl. now exists (f a). Qed.
Lemma defined_aget {A} (l : list A) i : (0 <= i < Z.of_nat (length l))%Z -> defined (aget l i).
Proof. intros H. now apply aget_in_bounds. Qed.
Lemma defined_ofold {A B} (f : B -> A -> outcome B) l :
  (forall b x, In x l -> defined (f b x)) -> forall b, defined (ofold f l b).
Proof.
  induction l as [|x l IH]; intros H b; simpl; [apply defined_Ok|].
  apply defined_bind; [apply H; now left|]. intros a _. apply IH. intros; apply H; now right.
Qed.
Lemma defined_omapM {A B} (f : A -> outcome B) l :
  (forall x, In x l -> defined (f x)) -> defined (omapM f l).
Proof.
  induction l as [|x l IH]; intros H; simpl; [apply defined_Ok|].
  apply defined_bind; [apply H; now left|]. intros a _.
  apply defined_bind; [apply IH; intros; apply H; now right|]. intros; apply defined_Ok.
Qed.
#[global] Hint Resolve defined_Ok defined_omap : dfn.

Lemma imul_ok a b : (-2147483648 <= a * b <= 2147483647)%Z -> imul a b = Ok (a * b)%Z.
Proof.
  intros [H1 H2]. unfold imul. apply Z.leb_le in H1. apply Z.leb_le in H2. now rewrite H1, H2.
Qed.

(** ** Table sizes *)
Lemma pse_sizes : length pse_95 = 92%nat /\ Forall (fun r => length r = 8%nat) pse_95.
Proof. split; [vm_compute; reflexivity|]. repeat constructor. Qed.
Lemma proton_sizes : length proton_stopping_coef = 92%nat /\
  Forall (fun r => length r = 8%nat) proton_stopping_coef.
Proof. split; [vm_compute; reflexivity|]. repeat constructor. Qed.
Lemma vfermi_size : length atima_vfermi = 92%nat.
Proof. vm_compute; reflexivity. Qed.
Lemma screening_size : length atima_lambda_screening = 92%nat.
Proof. vm_compute; reflexivity. Qed.

Lemma rows_check {A} (t : list (list A)) k : forallb (fun r => Nat.eqb (length r) k) t = true ->
  Forall (fun r => length r = k) t.
Proof.
  intros H. apply Forall_forall. intros r Hr. rewrite forallb_forall in H.
  apply Nat.eqb_eq. auto.
Qed.
Lemma ls_a_sizes : length ls_coefficients_a = 108%nat /\ Forall (fun r => length r = 200%nat) ls_coefficients_a.
Proof. split; [vm_compute; reflexivity|]. apply rows_check. vm_compute. reflexivity. Qed.
Lemma ls_ahi_sizes : length ls_coefficients_ahi = 108%nat /\ Forall (fun r => length r = 200%nat) ls_coefficients_ahi.
Proof. split; [vm_compute; reflexivity|]. apply rows_check. vm_compute. reflexivity. Qed.
Lemma ls_Xa_sizes : length ls_X_coefficients_a = 108%nat /\ Forall (fun r => length r = 200%nat) ls_X_coefficients_a.
Proof. split; [vm_compute; reflexivity|]. apply rows_check. vm_compute. reflexivity. Qed.
Lemma ls_Xahi_sizes : length ls_X_coefficients_ahi = 108%nat /\ Forall (fun r => length r = 200%nat) ls_X_coefficients_ahi.
Proof. split; [vm_compute; reflexivity|]. apply rows_check. vm_compute. reflexivity. Qed.
Lemma density_sizes :
  length density_effect_x0 = 97%nat /\ length density_effect_del_0 = 97%nat /\
  length density_effect_c = 97%nat /\ length density_effect_x1 = 97%nat /\
  length density_effect_a = 97%nat /\ length density_effect_m = 97%nat.
Proof. vm_compute. repeat split; reflexivity. Qed.

Lemma tab1_ok t i : (0 <= i < Z.of_nat (length t))%Z -> defined (tab1 (F:=R) t i).
Proof. intros H. apply defined_omap, defined_aget, H. Qed.
Lemma tab2_ok t i j k : (0 <= i < Z.of_nat (length t))%Z -> Forall (fun r => length r = k) t ->
  (0 <= j < Z.of_nat k)%Z -> defined (tab2 (F:=R) t i j).
Proof.
  intros H S J. unfold tab2. apply defined_bind; [now apply defined_aget|].
  intros r Hr. apply defined_omap, defined_aget. apply aget_ok in Hr. destruct Hr as [_ Hr].
  apply nth_error_In in Hr. rewrite Forall_forall in S. now rewrite (S r Hr).
Qed.

Lemma srim_row_bounds z : (1 <= z)%Z -> (0 <= srim_row z < 92)%Z.
Proof. intros H. unfold srim_row. rewrite Z.gtb_ltb. destruct (Z.ltb_spec 92 z); lia. Qed.

Ltac dbind := apply defined_bind; [|intros ? ?].

Lemma p_se_with_ok t z e : length t = 92%nat -> Forall (fun r => length r = 8%nat) t ->
  (1 <= z)%Z -> defined (p_se_with (F:=R) t z e).
Proof.
  intros L S H. pose proof (srim_row_bounds z H) as B. unfold p_se_with. cbv zeta.
  do 8 (dbind; [apply (tab2_ok _ _ _ 8%nat); [rewrite L; lia | assumption | lia]|]).
  apply defined_Ok.
Qed.
Lemma p_se_ok z e : (1 <= z)%Z -> defined (p_se (F:=R) z e).
Proof. apply p_se_with_ok; apply pse_sizes. Qed.
Lemma p_se85_ok z e : (1 <= z)%Z -> defined (p_se85 (F:=R) z e).
Proof. apply p_se_with_ok; apply proton_sizes. Qed.

Lemma srim_dedx_e_ok pz tz e b : (1 <= pz <= 46340)%Z -> (1 <= tz)%Z ->
  defined (srim_dedx_e (F:=R) pz tz e b).
Proof.
  intros P T. unfold srim_dedx_e. cbv zeta.
  set (f := if b then p_se else p_se85).
  assert (Hf : forall e, defined (f tz e)).
  { intros e'. unfold f. destruct b; [now apply p_se_ok | now apply p_se85_ok]. }
  destruct (pz =? 1)%Z; [apply Hf|]. destruct (pz =? 2)%Z.
  - unfold srim_he. cbv zeta. dbind; [apply Hf|]. apply defined_Ok.
  - unfold srim_hi. cbv zeta.
    pose proof (srim_row_bounds tz T). pose proof (srim_row_bounds pz ltac:(lia)).
    dbind; [apply tab1_ok; rewrite vfermi_size; lia|].
    dbind; [apply tab1_ok; rewrite screening_size; lia|].
    rewrite imul_ok by nia. cbn [bind].
    destruct (fleb _ _); (dbind; [apply Hf|apply defined_Ok]).
Qed.

Lemma density_effect_ok beta zt : (1 <= zt)%Z -> defined (bethek_density_effect (F:=R) beta zt).
Proof.
  intros H. unfold bethek_density_effect. cbv zeta.
  set (i := ((if (zt >? 97)%Z then 97%Z else zt) - 1)%Z).
  assert (B : (0 <= i < 97)%Z).
  { unfold i. rewrite Z.gtb_ltb. destruct (Z.ltb_spec 97 zt); lia. }
  destruct density_sizes as (S1 & S2 & S3 & S4 & S5 & S6).
  dbind; [apply tab1_ok; rewrite S1; lia|]. destruct (fltb _ _).
  - dbind; [apply tab1_ok; rewrite S2; lia|]. apply defined_Ok.
  - dbind; [apply tab1_ok; rewrite S3; lia|]. dbind; [apply tab1_ok; rewrite S4; lia|].
    destruct (_ && _)%bool; [|apply defined_Ok].
    dbind; [apply tab1_ok; rewrite S5; lia|]. dbind; [apply tab1_ok; rewrite S6; lia|]. apply defined_Ok.
Qed.

(** ** The LS tables *)
(** energies for which the lookup in the LS grid is unproblematic: anything but the tiny interval
    just below the last grid point *)
Definition ls_glast : R := glast 200 0 7.
Definition ls_safe (T : R) : Prop := ~ (ls_glast - numeric_epsilon <= T < ls_glast).

Lemma ls_table_eq : ls_energy_table (F:=R) = et_make 200 0 7.
Proof. unfold ls_energy_table. numR. dec_norm. reflexivity. Qed.

Lemma ls_lookup_ok tab z T : (0 <= z < Z.of_nat (length tab))%Z ->
  Forall (fun r => length r = 200%nat) tab -> ls_safe T -> defined (ls_lookup (F:=R) tab z T).
Proof.
  intros H S G. unfold ls_lookup. dbind; [now apply defined_aget|].
  rewrite ls_table_eq. apply interp_total; [lia|lia|lra| |exact G].
  intros i Hi. apply defined_omap, defined_aget. apply aget_ok in H0. destruct H0 as [_ Hr].
  apply nth_error_In in Hr. rewrite Forall_forall in S. rewrite (S _ Hr). lia.
Qed.

(** charge of a projectile that the tables cover *)
Definition proj_Z_ok (p : Projectile R) : Prop := 1 <= pZ p < 109.

Lemma proj_Z_int p : proj_Z_ok p ->
  fto_int (pZ p) = Some (Rfloor_Z (pZ p)) /\ (1 <= Rfloor_Z (pZ p) <= 108)%Z.
Proof.
  intros [H1 H2]. split; [apply Rto_int_nonneg; lra|].
  destruct (Rfloor_bound (pZ p)) as [B1 B2].
  assert (IZR 0 < IZR (Rfloor_Z (pZ p))) as A by lra. apply lt_IZR in A.
  assert (IZR (Rfloor_Z (pZ p)) < IZR 109) as B by lra. apply lt_IZR in B. lia.
Qed.

Lemma ls_e0 : aget (et_values (ls_energy_table (F:=R))) 0 = Ok 1.
Proof.
  rewrite ls_table_eq. rewrite et_aget by lia. f_equal. unfold gval.
  replace (LN10_ * (0 + 0 * gstep 200 0 7)) with 0 by ring. apply exp_0.
Qed.

Lemma ls_glast_big : 1 < ls_glast - numeric_epsilon.
Proof.
  pose proof eps_small. unfold ls_glast. rewrite glast_val by (lia || lra).
  pose proof (exp_ineq1 (LN10_ * 7)). pose proof LN10_pos.
  assert (1 < LN10_ (F:=R)) by (unfold LN10_; numR; dec_norm; lra).
  assert (1 + LN10_ * 7 < exp (LN10_ * 7)) by (apply H0; lra). lra.
Qed.

Lemma lindhard_ok p : proj_Z_ok p -> ls_safe (pT p) -> defined (precalculated_lindhard (F:=R) p).
Proof.
  intros Z G. destruct (proj_Z_int p Z) as [E B].
  unfold precalculated_lindhard. rewrite E. cbn [cast bind]. cbv zeta.
  replace (Rfloor_Z (pZ p) >? LS_MAX_Z)%Z with false
    by (symmetry; rewrite Z.gtb_ltb; apply Z.ltb_ge; unfold LS_MAX_Z; lia).
  rewrite ls_e0. cbn [bind]. numR.
  assert (G' : ls_safe (if Rltb (pT p) 1 then 1 else pT p)).
  { destruct (Rltb (pT p) 1); auto. unfold ls_safe. pose proof ls_glast_big. lra. }
  destruct ls_a_sizes as [A1 A2], ls_ahi_sizes as [A3 A4].
  dbind; [apply ls_lookup_ok; auto; rewrite A1; lia|].
  dbind; [apply ls_lookup_ok; auto; rewrite A3; lia|]. apply defined_Ok.
Qed.

Lemma lindhard_X_ok p : proj_Z_ok p -> ls_safe (pT p) -> defined (precalculated_lindhard_X (F:=R) p).
Proof.
  intros Z G. destruct (proj_Z_int p Z) as [E B].
  unfold precalculated_lindhard_X. cbv zeta. rewrite E. cbn [cast bind].
  replace (Rfloor_Z (pZ p) >? LS_MAX_Z)%Z with false
    by (symmetry; rewrite Z.gtb_ltb; apply Z.ltb_ge; unfold LS_MAX_Z; lia).
  rewrite ls_e0. cbn [bind]. destruct (fltb _ _); [apply defined_Ok|].
  destruct ls_Xa_sizes as [A1 A2], ls_Xahi_sizes as [A3 A4].
  dbind; [apply ls_lookup_ok; auto; rewrite A1; lia|].
  dbind; [apply ls_lookup_ok; auto; rewrite A3; lia|]. apply defined_Ok.
Qed.

(** ** Stopping power and straggling *)
Definition targets_ok (m : Material R) : Prop := Forall (fun t => (1 <= tZ t)%Z) (m_atoms m).

Lemma sezi_ok p m c : proj_Z_ok p -> targets_ok m -> defined (sezi_dedx_e p m c).
Proof.
  intros Z Tg. destruct (proj_Z_int p Z) as [E B]. unfold sezi_dedx_e. cbv zeta.
  dbind; [|apply defined_Ok]. apply defined_ofold. intros b t Ht. rewrite E. cbn [cast bind].
  unfold targets_ok in Tg. rewrite Forall_forall in Tg. specialize (Tg t Ht).
  dbind; [apply srim_dedx_e_ok; lia|]. apply defined_Ok.
Qed.

Lemma bethek_ok p m c : proj_Z_ok p -> targets_ok m -> ls_safe (pT p) ->
  defined (bethek_dedx_e p m c).
Proof.
  intros Z Tg G. unfold bethek_dedx_e. apply defined_ofold. intros b t Ht.
  unfold targets_ok in Tg. rewrite Forall_forall in Tg. specialize (Tg t Ht). cbv beta in Tg.
  dbind; [|apply defined_Ok]. unfold bethek_dedx_e_t. destruct (feqb _ _); [apply defined_Ok|].
  cbv zeta. dbind; [now apply density_effect_ok|].
  dbind; [destruct (negb _); [now apply lindhard_ok | apply defined_Ok]|]. apply defined_Ok.
Qed.

Lemma dedx_ok p m c : proj_Z_ok p -> targets_ok m -> ls_safe (pT p) -> defined (dedx p m c).
Proof.
  intros Z Tg G. unfold dedx. destruct (fleb _ _); [apply defined_Ok|]. cbv zeta.
  dbind; [|apply defined_Ok].
  destruct (fleb _ _); [now apply sezi_ok|]. destruct (_ && _)%bool; [|now apply bethek_ok].
  dbind; [now apply sezi_ok|]. dbind; [now apply bethek_ok|]. apply defined_Ok.
Qed.

Lemma domega2dx_ok p m c : proj_Z_ok p -> ls_safe (pT p) -> defined (domega2dx p m c).
Proof.
  intros Z G. unfold domega2dx. apply defined_ofold. intros b t Ht.
  dbind; [|apply defined_Ok]. unfold dedx_variance. cbv zeta.
  dbind; [now apply lindhard_X_ok|]. apply defined_Ok.
Qed.

(** z*z must fit into an int in the radiation length *)
Definition radiation_ok (m : Material R) : Prop := Forall (fun t => (-46340 <= tZ t <= 46340)%Z) (m_atoms m).
Lemma radiation_length_z_ok z m : (-46340 <= z <= 46340)%Z -> defined (radiation_length_z (F:=R) z m).
Proof.
  intros H. unfold radiation_length_z. destruct (zassoc radiation_table z); [apply defined_Ok|].
  rewrite imul_ok by nia. apply defined_Ok.
Qed.
Lemma radiation_length_ok m : radiation_ok m -> defined (radiation_length (F:=R) m).
Proof.
  intros H. unfold radiation_length. dbind; [|apply defined_Ok]. apply defined_ofold. intros b t Ht.
  unfold radiation_ok in H. rewrite Forall_forall in H. specialize (H t Ht).
  dbind; [now apply radiation_length_z_ok|]. apply defined_Ok.
Qed.

Lemma da2de_ok p m c : proj_Z_ok p -> targets_ok m -> radiation_ok m -> ls_safe (pT p) ->
  defined (da2de p m c).
Proof.
  intros Z Tg Ra G. unfold da2de. dbind.
  - unfold da2dx. dbind; [|apply defined_Ok]. unfold angular_scattering_power.
    destruct (fleb _ _); [apply defined_Ok|]. cbv zeta.
    dbind; [now apply radiation_length_ok|apply defined_Ok].
  - dbind; [now apply dedx_ok|apply defined_Ok].
Qed.
