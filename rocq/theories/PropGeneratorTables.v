(** * The grid of the generated file and of the library, and the digits of the shipped file *)
From Flocq Require Import Core.
From Coq Require Import ZArith Reals List Bool Ascii String Lra Lia Floats SpecFloat.
From Verif Require Import Num NumR NumF Structures EnergyTable Calculations Convert GridProofs InterpProofs BoundsProofs TotalProofs PropGrid PropTables Binary64 Binary64Num Binary64Lit
  PropGridFloat PropLindhardFloat DataLSa DataLSahi DataLSXa DataLSXahi Lindhard Generator PropGenerator.
Import ListNotations.
Local Open Scope R_scope.

(** ** The file is computed at the energies at which the library looks it up: exp (M_LN10 * 7 i / 199) *)
Theorem C63_grid i : (i < 200)%nat -> gen_energy (F:=R) (Z.of_nat i) = exp (LN10_ * (7 * INR i / 199)) /\
  nth_error (et_values (ls_energy_table (F:=R))) i = Some (gen_energy (F:=R) (Z.of_nat i)).
Proof.
  intros I. assert (E : gen_energy (F:=R) (Z.of_nat i) = exp (LN10_ * (7 * INR i / 199))).
  { unfold gen_energy, gen_logEmin, gen_logEmax, gen_points. numR. replace (Rlit 0.0) with 0 by (dec_norm; lra). replace (Rlit 7.0) with 7 by (dec_norm; lra).
    replace (Rlit 200) with 200 by (dec_norm; lra). replace (Rlit 1.0) with 1 by (dec_norm; lra). rewrite <- INR_IZR_INZ. do 2 f_equal. field. }
  split.
  - exact E.
  - rewrite ls_table_eq, E. rewrite et_nth by exact I. do 2 f_equal. unfold gval. rewrite gstep200. do 2 f_equal. field.
Qed.
Print Assumptions C63_grid.

(** in doubles the two grids, written with different formulas, agree to 6e-14 *)
Lemma exp_of_argument lm x i : exp_accurate lm -> (i < 200)%nat -> app x (LN10_ * (0 + INR i * (7 / 199))) (2 / 10 ^ 14) ->
  fin (lm_exp lm x) /\ Rabs (val (lm_exp lm x) - lsR i) <= 3 / 10 ^ 14 * lsR i.
Proof.
  intros EX H [F A].
  rewrite lsR_G by exact H. unfold gval. rewrite gstep200. set (r := LN10_ * (0 + INR i * (7 / 199))) in *. 
  assert (I0 : 0 <= INR i <= 199). { split; [apply pos_INR|]. replace 199 with (INR 199) by (rewrite INR_IZR_INZ; reflexivity). apply le_INR. lia. }
  pose proof LN10_bounds as LB. assert (RB : -700 < r - 1 /\ r + 1 < 700) by (unfold r; nra). clearbody r.
  pose proof A as A'. apply Rabs_le_inv in A'. destruct (EX x F ltac:(lra)) as [F' E]. split; [exact F'|].
  set (d := val x - r) in *. assert (VE : exp (val x) = exp r * exp d) by (rewrite <- exp_plus; f_equal; unfold d; ring). rewrite VE in E. pose proof (exp_near d ltac:(lra)) as N. pose proof (exp_pos r) as P.
  apply Rabs_le_inv in N. apply Rabs_le_inv in E. assert (D1 : 1 - 4 / 10 ^ 14 <= exp d <= 1 + 4 / 10 ^ 14) by lra.
  assert (D2 : 1 - 21 / 10 ^ 15 <= exp d <= 1 + 21 / 10 ^ 15).
  { pose proof (exp_ineq1_le d) as L. pose proof (exp_ineq1_le (- d)) as L'. rewrite exp_Ropp in L'. pose proof (exp_pos d) as Pd.
    assert (U : exp d * (1 - d) <= 1). { apply Rmult_le_reg_r with (/ exp d); [now apply Rinv_0_lt_compat|]. replace (exp d * (1 - d) * / exp d) with (1 - d) by (field; lra). lra. }
    clearbody d. split; [lra|]. clear - U A' D1. nra. }
  clear N A A' D1. set (X := val _) in *. set (e := exp d) in *. set (g := exp r) in *. clearbody X e g d. unfold u in E. apply Rabs_le. nra.
Qed.
Definition genF (lm : Libm) (i : nat) : float := gen_energy (N := NumF lm) (Z.of_nat i).
Lemma gen_argument_app lm i : (i < 200)%nat ->
  app (LN10_ (N:=NumF lm) * (lit (Num:=NumF lm) 0.0 + F_of_Z (Z.of_nat i) * (lit (Num:=NumF lm) 7.0 - lit (Num:=NumF lm) 0.0) / (lit (Num:=NumF lm) 200 - lit (Num:=NumF lm) 1.0)))%float
    (LN10_ * (0 + INR i * (7 / 199))) (2 / 10 ^ 14).
Proof.
  intros H. assert (I0 : 0 <= INR i <= 199). { split; [apply pos_INR|]. replace 199 with (INR 199) by (rewrite INR_IZR_INZ; reflexivity). apply le_INR. lia. }
  pose proof tiny_le as TL. pose proof tiny_pos as TP. pose proof big_ge as BG. pose proof LN10_bounds as LB.
  assert (A1 : app (F_of_Z (Z.of_nat i)) (INR i) 0).
  { destruct (F_of_Z_val (Z.of_nat i) ltac:(lia)) as [F V]. split; [exact F|]. rewrite V, <- INR_IZR_INZ. replace (INR i - INR i) with 0 by ring. rewrite Rabs_R0. lra. }
  assert (A7 : app (lit (Num:=NumF lm) 7.0 - lit (Num:=NumF lm) 0.0)%float 7 0) by (closed_double (lit (Num:=NumF lm) 7.0 - lit (Num:=NumF lm) 0.0)%float; lra).
  assert (A199 : app (lit (Num:=NumF lm) 200 - lit (Num:=NumF lm) 1.0)%float 199 0) by (closed_double (lit (Num:=NumF lm) 200 - lit (Num:=NumF lm) 1.0)%float; lra).
  assert (A00 : app (lit (Num:=NumF lm) 0.0) 0 0) by (closed_double (lit (Num:=NumF lm) 0.0); lra).
  set (seven := (lit (Num:=NumF lm) 7.0 - lit (Num:=NumF lm) 0.0)%float) in *. set (n199 := (lit (Num:=NumF lm) 200 - lit (Num:=NumF lm) 1.0)%float) in *.
  set (zero := lit (Num:=NumF lm) 0.0) in *. clearbody seven n199 zero.
  assert (A2 : app (F_of_Z (Z.of_nat i) * seven)%float (INR i * 7) (16 / 10 ^ 14)).
  { eapply app_weaken; [apply (app_mul _ _ _ _ _ _ A1 A7)|]; rewrite ?(Rabs_pos_eq (INR i)), ?(Rabs_pos_eq 7), ?(Rabs_pos_eq (INR i * 7)) by nra; unfold u; nra. }
  assert (A3 : app (F_of_Z (Z.of_nat i) * seven / n199)%float (INR i * (7 / 199)) (3 / 10 ^ 15)).
  { replace (INR i * (7 / 199)) with (INR i * 7 / 199) by field. assert (B7 : 0 <= INR i * 7 / 199 <= 7) by lra.
    eapply app_weaken; [apply (app_div _ _ _ _ _ _ A2 A199)|]; rewrite ?(Rabs_pos_eq (INR i * 7)), ?(Rabs_pos_eq 199), ?(Rabs_pos_eq (INR i * 7 / 199)) by lra; unfold u; lra. }
  assert (B : Rabs (0 + INR i * (7 / 199)) <= 7) by (apply Rabs_le; lra). pose proof (Rabs_pos (0 + INR i * (7 / 199))) as BP.
  assert (A4 : app (zero + F_of_Z (Z.of_nat i) * seven / n199)%float (0 + INR i * (7 / 199)) (4 / 10 ^ 15)).
  { eapply app_weaken; [apply (app_add _ _ _ _ _ _ A00 A3); lra|]. set (r := Rabs _) in *. clearbody r. unfold u. lra. }
  eapply app_weaken; [apply (app_mul _ _ _ _ _ _ (LN10_app lm) A4)|]; rewrite Rabs_mult, (Rabs_pos_eq LN10_) by lra; set (r := Rabs (0 + INR i * (7 / 199))) in *; clearbody r; unfold u; nra.
Qed.

(** ** In doubles the generator's grid and the library's agree to 6e-14 at each of the 200 energies *)
Theorem C63_binary64_grid lm i : exp_accurate lm -> (i < 200)%nat ->
  let g := gen_energy (N := NumF lm) (Z.of_nat i) in let e := nth i (et_values (ls_energy_table (N := NumF lm))) 0%float in
  fin g /\ fin e /\ Rabs (val g - val e) <= 6 / 10 ^ 14 * exp (LN10_ * (7 * INR i / 199)).
Proof.
  intros EX H g e. destruct (exp_of_argument lm _ i EX H (gen_argument_app lm i H)) as [F1 E1].
  destruct (C25_binary64_grid lm EX) as [_ L]. destruct (L i H) as [F2 E2]. split; [exact F1|]. split; [exact F2|].
  change (val (lm_exp lm _)) with (val g) in E1. change (val (lsE lm i)) with (val e) in E2.
  replace (exp (LN10_ * (7 * INR i / 199))) with (lsR i) by (rewrite lsR_G by exact H; unfold gval; rewrite gstep200; do 2 f_equal; field).
  apply Rabs_le_inv in E1. apply Rabs_le_inv in E2. apply Rabs_le. lra.
Qed.
Print Assumptions C63_binary64_grid.

(** ** The shipped file: four tables of 108 rows of 200 numbers with at most six significant digits, which
    is what operator<< prints of a double unless told otherwise *)
Definition six_digits (d : dec) : bool := match d with Dec m _ => (Z.abs m <? 1000000)%Z end.
Definition six_table (t : list (list dec)) : bool := Nat.eqb (List.length t) 108 && forallb (fun r => Nat.eqb (List.length r) 200 && forallb six_digits r) t.
Lemma six_tables : forallb six_table [ls_coefficients_a; ls_coefficients_ahi; ls_X_coefficients_a; ls_X_coefficients_ahi] = true.
Proof. vm_compute. reflexivity. Qed.
Theorem C63_digits t : In t [ls_coefficients_a; ls_coefficients_ahi; ls_X_coefficients_a; ls_X_coefficients_ahi] -> List.length t = 108%nat /\
  forall row, In row t -> List.length row = 200%nat /\ forall d, In d row -> exists m e : Z, d = Dec m e /\ (Z.abs m < 10 ^ 6)%Z.
Proof.
  intros T. pose proof six_tables as S6. rewrite forallb_forall in S6. specialize (S6 t T). unfold six_table in S6. apply andb_prop in S6. destruct S6 as [L S6].
  split; [now apply Nat.eqb_eq in L|]. intros row R1. rewrite forallb_forall in S6. specialize (S6 row R1). apply andb_prop in S6. destruct S6 as [L2 S6].
  split; [now apply Nat.eqb_eq in L2|]. intros d D1. rewrite forallb_forall in S6. specialize (S6 d D1). destruct d as [m e]. exists m, e. split; [reflexivity|].
  apply Z.ltb_lt in S6. exact S6.
Qed.
Print Assumptions C63_digits.

(** ** A case: a correction linear in energy and mass, printed in words *)
Definition word (x : R) : string := if Rltb 100 x then "large" else "small".
Lemma word_plain x : plain (word x) = true. Proof. unfold word. destruct (Rltb 100 x); reflexivity. Qed.
Lemma nth_map_seq {A} (f : nat -> A) d s n k : (k < n)%nat -> nth k (map f (seq s n)) d = f (s + k)%nat.
Proof. intros K. apply nth_error_nth. erewrite map_nth_error; [reflexivity|]. rewrite nth_error_nth' with (d := 0%nat) by (rewrite seq_length; exact K). now rewrite seq_nth. Qed.
Example C63_case : (forall x, plain (word x) = true) /\
  exists txt, generator word (fun p => Some (pT p + pA p)) (fun p => Some (pZ p)) = Some txt /\
    exists t, In (("double ls_X_coefficients_ahi[][" ++ "large" ++ "]=")%string, t) (arrays txt) /\ List.length t = 108%nat /\ nth 7 (nth 100 t []) EmptyString = "large"%string /\
      nth 7 (nth 99 t []) EmptyString = "small"%string.
Proof.
  split; [exact word_plain|].
  destruct (proj2 (C63_written word (fun p => Some (pT p + pA p)) (fun p => Some (pZ p)) word_plain)) as [txt G]; [intros; split; discriminate|].
  exists txt. split; [exact G|]. destruct (C63_arrays word _ _ txt word_plain G) as (r & r2 & x & x2 & V & A). cbv zeta in A.
  assert (W : word (lit 200) = "large"%string). { unfold word. numR. destruct (Rltb_spec 100 (Rlit 200)) as [|N]; [reflexivity|]. exfalso. apply N. dec_norm. lra. }
  rewrite W in A. eexists. rewrite A. split; [right; right; right; left; reflexivity|].
  split; [rewrite map_length; apply seq_length|].
  assert (X : forall z, (1 <= z <= 108)%nat -> nth 7 (nth (z - 1) (map (fun z0 => map (fun i => word (x2 z0 i)) (seq 0 200)) (seq 1 108)) []) EmptyString = word (INR z)).
  { intros z HZ. rewrite nth_map_seq by lia. rewrite nth_map_seq by lia. replace (1 + (z - 1))%nat with z by lia.
    destruct (V z 7%nat HZ ltac:(lia)) as (_ & _ & _ & V4). apply some_inj in V4. cbn [pZ] in V4. change (0 + 7)%nat with 7%nat. rewrite <- V4. numR. rewrite <- INR_IZR_INZ. reflexivity. }
  pose proof (X 101%nat ltac:(lia)) as X1. pose proof (X 100%nat ltac:(lia)) as X2. change (101 - 1)%nat with 100%nat in X1. change (100 - 1)%nat with 99%nat in X2.
  rewrite X1, X2. split; unfold word.
  - destruct (Rltb_spec 100 (INR 101)) as [|N]; [reflexivity|]. exfalso. apply N. rewrite INR_IZR_INZ. apply IZR_lt. lia.
  - destruct (Rltb_spec 100 (INR 100)) as [N|]; [|reflexivity]. exfalso. rewrite INR_IZR_INZ in N. apply lt_IZR in N. lia.
Qed.
