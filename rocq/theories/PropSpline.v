(** * Properties C20-C24: the cubic splines *)
From Coq Require Import ZArith Reals List Bool Lra Lia.
From Verif Require Import NumF Num NumR Structures EnergyTable Spline SplineMem GridProofs TotalProofs SplineProofs PropGrid.
Import ListNotations.
Local Open Scope R_scope.

(** ** C22: the tridiagonal solver *)

(** row i of the system, in terms of the entries the solver reads as lower (a), diagonal (d), upper (c) *)
Definition equation (rows : list (row R)) (x : list R) (i : nat) : Prop :=
  forall r, nth_error rows i = Some r ->
    (if Nat.eqb i 0 then 0 else ra r * nth (i - 1) x 0) + rd r * nth i x 0
    + (if Nat.eqb (S i) (length rows) then 0 else rc r * nth (S i) x 0) = rb r.
Definition solution (rows : list (row R)) (x : list R) : Prop :=
  length x = length rows /\ forall i, (i < length rows)%nat -> equation rows x i.

Lemma solution_iff rows x : solution rows x <-> solves 0 rows x.
Proof.
  rewrite solves_nth. unfold solution, equation. split; intros [L H]; (split; [exact L|]).
  - intros i r Hi. assert (B : (i < length rows)%nat) by (apply nth_error_Some; congruence).
    rewrite <- (H i B r Hi). f_equal; [f_equal|].
    + destruct (Nat.eqb i 0); ring.
    + destruct (Nat.eqb_spec (S i) (length rows)) as [E|_]; [|reflexivity].
      rewrite nth_overflow by lia. ring.
  - intros i B r Hi. rewrite <- (H i r Hi). f_equal; [f_equal|].
    + destruct (Nat.eqb i 0); ring.
    + destruct (Nat.eqb_spec (S i) (length rows)) as [E|_]; [|reflexivity].
      rewrite (nth_overflow x) by lia. ring.
Qed.

Theorem C22_solver (rows : list (row R)) :
  rows <> [] -> Forall (fun r => Rabs (ra r) + Rabs (rc r) < Rabs (rd r)) rows ->
  exists x, trig_solve rows = Ok x /\ solution rows x /\ forall x', solution rows x' -> x' = x.
Proof.
  intros NE D. destruct (solve_exact rows NE D) as (x & E & S & U). exists x. split; [assumption|].
  split; [now apply solution_iff|]. intros x' H. apply U. now apply solution_iff.
Qed.
Print Assumptions C22_solver.

(** more generally: whenever the solver does not meet a zero pivot (in which case it answers all zeros) *)
Theorem C22_no_zero_pivot (rows : list (row R)) x : trig_solve rows = Ok x ->
  (solution rows x /\ forall x', solution rows x' -> x' = x) \/ x = repeat 0 (length rows).
Proof.
  intros H. destruct (solve_inv _ _ H) as (r0 & rows' & -> & B & [(l & F & ->)|(_ & ->)]); [left|right; reflexivity].
  split.
  - apply solution_iff. destruct (back_cons (rb r0 / rd r0) l) as (x0 & rest & E). rewrite E.
    destruct (forward_solves _ _ _ _ _ B F _ _ E) as [P S]. cbn [solves]. split; [|exact S].
    rewrite Rmult_0_r, Rplus_0_l, P. field. exact B.
  - intros x' S. apply solution_iff in S. destruct x' as [|x0 rest]; [contradiction|]. cbn [solves] in S. destruct S as [S1 S].
    apply (solves_forward _ _ _ _ _ B F); [|exact S]. rewrite Rmult_0_r, Rplus_0_l in S1. rewrite S1. field. exact B.
Qed.
Print Assumptions C22_no_zero_pivot.

(** the rows of every spline are dominant when the leftovers are below 2 *)
Definition increasing (xs : list R) : Prop :=
  forall i j, (i < j)%nat -> (j < length xs)%nat -> nth i xs 0 < nth j xs 0.

Lemma rows_dominant xs ys junk : increasing xs -> length xs = length ys -> (2 <= length xs)%nat ->
  Rabs (fst junk) < 2 -> Rabs (snd junk) < 2 -> Forall dominant (spline_rows xs ys junk).
Proof.
  intros IX L N2 J0 J1. unfold spline_rows. constructor.
  - unfold dominant. cbn [ra rd rc]. numR. dec_norm. rewrite Rabs_right by lra.
    rewrite (Rabs_right (_ / _)) by lra. lra.
  - apply Forall_app. split; [|constructor; [|constructor]].
    + apply Forall_forall. intros r Hr. apply In_nth_error in Hr. destruct Hr as [i Hi].
      assert (B : (i < length (inner_rows xs ys))%nat) by (apply nth_error_Some; congruence).
      rewrite inner_rows_length in B by assumption.
      destruct (inner_rows_nth xs ys i L ltac:(lia)) as (r' & E & Ha & Hd & Hc & _).
      assert (r' = r) by congruence. subst r'. unfold dominant. rewrite Ha, Hd, Hc.
      pose proof (IX i (i + 1)%nat ltac:(lia) ltac:(lia)). pose proof (IX (i + 1)%nat (i + 2)%nat ltac:(lia) ltac:(lia)).
      rewrite !Rabs_right; lra.
    + unfold dominant. cbn [ra rd rc]. numR. dec_norm. rewrite (Rabs_right (0 / _)) by lra.
      rewrite (Rabs_right (_ / _)) by lra. lra.
Qed.

Theorem C22_spline_rows xs ys junk : increasing xs -> length xs = length ys -> (2 <= length xs)%nat ->
  Rabs (fst junk) < 2 -> Rabs (snd junk) < 2 ->
  exists b, trig_solve (spline_rows xs ys junk) = Ok b /\ solution (spline_rows xs ys junk) b /\
    forall b', solution (spline_rows xs ys junk) b' -> b' = b.
Proof.
  intros IX L N2 J0 J1. apply C22_solver; [discriminate|]. now apply rows_dominant.
Qed.
Print Assumptions C22_spline_rows.

Example C22_case : exists x, trig_solve [mkRow 0 2 1 (3 : R); mkRow 1 4 1 6; mkRow 1 2 0 3] = Ok x /\ x = [1; 1; 1].
Proof.
  destruct (C22_solver [mkRow 0 2 1 (3 : R); mkRow 1 4 1 6; mkRow 1 2 0 3]) as (x & E & _ & U).
  - discriminate.
  - repeat constructor; cbn; rewrite !Rabs_right; lra.
  - exists x. split; [assumption|]. symmetry. apply U. split; [reflexivity|].
    intros [|[|[|i]]] B; [| | |cbn in B; lia]; intros r [= <-]; cbn; lra.
Qed.

(** ** Grids and pieces *)
Section Grid.
  Variables (n : nat) (lmin lmax : R).
  Hypothesis n3 : (3 <= n)%nat.
  Hypothesis nmax : (Z.of_nat n < 2147483648)%Z.
  Hypothesis lim : lmin < lmax.
  Notation tab := (et_make n lmin lmax).
  Notation X i := (gval n lmin lmax (INR i)).

  Let n2 : (2 <= n)%nat. Proof. clear - n3. lia. Qed.

  Lemma X_lt i j : (i < j)%nat -> X i < X j.
  Proof. intros H. apply gval_lt; [exact n2|exact lim|]. now apply lt_INR. Qed.
  Lemma X_nth i : (i < n)%nat -> nth i (et_values tab) 0 = X i.
  Proof. intros H. apply nth_error_nth. now apply et_nth. Qed.
  Lemma tab_increasing : increasing (et_values tab).
  Proof. intros i j H1 H2. rewrite et_values_length in H2. rewrite !X_nth by lia. now apply X_lt. Qed.

  (** *** a piece of the spline, its slope and curvature, from the arrays *)
  Definition piece (s : spline R) (i : nat) (x : R) : R :=
    let h := x - X i in
    ((nth i (sp_a s) 0 * h + nth i (sp_b s) 0) * h + nth i (sp_c s) 0) * h + nth i (sp_y s) 0.
  Definition slope (s : spline R) (i : nat) (x : R) : R :=
    let h := x - X i in (3 * nth i (sp_a s) 0 * h + 2 * nth i (sp_b s) 0) * h + nth i (sp_c s) 0.
  Definition curvature (s : spline R) (i : nat) (x : R) : R :=
    let h := x - X i in 6 * nth i (sp_a s) 0 * h + 2 * nth i (sp_b s) 0.
  Definition left_line (s : spline R) (x : R) : R := nth 0 (sp_c s) 0 * (x - X 0) + nth 0 (sp_y s) 0.

  Lemma piece_cont s i : continuity (piece s i).
  Proof. unfold piece. cbv zeta. reg. Qed.
  Lemma left_cont s : continuity (left_line s).
  Proof. unfold left_line. reg. Qed.
  Lemma piece_deriv s i x : derivable_pt_lim (piece s i) x (slope s i x).
  Proof.
    unfold piece, slope. cbv zeta.
    set (a := nth i (sp_a s) 0). set (b := nth i (sp_b s) 0). set (c := nth i (sp_c s) 0). set (y := nth i (sp_y s) 0).
    set (k := X i).
    assert (D : derivable_pt (fun x => ((a * (x - k) + b) * (x - k) + c) * (x - k) + y) x) by reg.
    assert (E : derive_pt (fun x => ((a * (x - k) + b) * (x - k) + c) * (x - k) + y) x D
                = (3 * a * (x - k) + 2 * b) * (x - k) + c) by (reg; ring).
    rewrite <- E. apply derive_pt_eq_1 with D. reflexivity.
  Qed.

  Section Constructed.
    Variables (y : list R) (junk : R * R) (s : spline R).
    Hypothesis made : make_spline tab y junk = Ok s.

    Lemma made_arrays : (n <= length y)%nat /\ sp_table s = tab /\ sp_y s = y /\
      exists b, trig_solve (spline_rows (et_values tab) (firstn n y) junk) = Ok b /\ arrays (et_values tab) y s b.
    Proof.
      apply (make_spline_arrays tab y junk s); [rewrite et_values_length, et_n_R; reflexivity|exact n2|exact made].
    Qed.

    (** pieces meet at the data *)
    Lemma piece_start i : piece s i (X i) = nth i (sp_y s) 0.
    Proof. unfold piece. cbv zeta. ring. Qed.
    Lemma piece_end i : (i + 1 < n)%nat -> piece s i (X (i + 1)) = nth (i + 1) (sp_y s) 0.
    Proof.
      intros H. destruct made_arrays as (_ & _ & Ey & b & _ & A). rewrite Ey.
      unfold piece. cbv zeta. rewrite Ey.
      pose proof (ar_b _ _ _ _ A) as Lb. rewrite et_values_length in Lb.
      rewrite (ar_sa _ _ _ _ A), (ar_sb _ _ _ _ A), (ar_sc _ _ _ _ A) by (rewrite et_values_length; lia).
      rewrite !X_nth by lia. pose proof (X_lt i (i + 1) ltac:(lia)). field. lra.
    Qed.

    Definition whole : R -> R := paste (left_line s) (map (fun j => (X j, piece s j)) (seq 0 n)).

    Lemma whole_cont : continuity whole.
    Proof.
      apply paste_cont.
      - apply left_cont.
      - apply Forall_forall. intros kg H. apply in_map_iff in H. destruct H as (j & <- & _). apply piece_cont.
      - apply glued_seq; [exact X_lt| |].
        + rewrite piece_start. unfold left_line. ring.
        + intros j _ H. rewrite piece_start. replace (S j) with (j + 1)%nat by lia. apply piece_end. lia.
    Qed.

    Lemma whole_piece i x : (i < n)%nat -> X i <= x -> ((S i < n)%nat -> x < X (S i)) -> whole x = piece s i x.
    Proof. intros H L U. unfold whole. apply (paste_piece (fun j => X j)); [exact X_lt|lia|assumption|assumption]. Qed.
    Lemma whole_left x : x < X 0 -> whole x = left_line s x.
    Proof. intros H. unfold whole. apply (paste_left (fun j => X j)); [lia|assumption]. Qed.

    (** what evaluation does: the piece chosen by the lookup *)
    Lemma aget_nth (l : list R) i : (i < length l)%nat -> aget l (Z.of_nat i) = Ok (nth i l 0).
    Proof.
      intros H. apply aget_ok. split; [lia|]. rewrite Nat2Z.id. now apply nth_error_nth'.
    Qed.

    Lemma choose x :
      x < X 0 \/
      exists i, et_index tab x = Ok (Z.of_nat i) /\ (i < n)%nat /\
        ((X i <= x /\ ((S i < n)%nat -> x < X (S i) - numeric_epsilon)) \/
         (X i - numeric_epsilon <= x < X i /\ X 0 <= x)).
    Proof.
      destruct (Rlt_le_dec x (X 0)) as [H|H]; [now left|right].
      destruct (Rlt_le_dec x (glast n lmin lmax - numeric_epsilon)) as [U|U].
      - destruct (index_inside_cases n lmin lmax n2 nmax lim x) as (i & E & B & C); [split; assumption|].
        exists (Z.to_nat i). rewrite Z2Nat.id by lia. split; [assumption|]. split; [lia|].
        replace (X (Z.to_nat i)) with (gval n lmin lmax (IZR i)) by (f_equal; rewrite INR_IZR_INZ, Z2Nat.id by lia; reflexivity).
        replace (X (S (Z.to_nat i))) with (gval n lmin lmax (IZR (i + 1)))
          by (f_equal; rewrite S_INR, INR_IZR_INZ, Z2Nat.id, plus_IZR by lia; reflexivity).
        destruct C as [C|C]; [left|right]; split; try lra; intros; lra.
      - exists (n - 1)%nat. replace (Z.of_nat (n - 1)) with (Z.of_nat n - 1)%Z by lia.
        split; [apply index_above; [exact n2|exact lim|exact H|exact U]|]. split; [lia|].
        assert (G : glast n lmin lmax = X (n - 1)).
        { unfold glast. f_equal. rewrite minus_INR by lia. reflexivity. }
        rewrite G in U. destruct (Rlt_le_dec x (X (n - 1))); [right|left]; split; try lra; intros; lia.
    Qed.

    Lemma lens : length (sp_a s) = n /\ length (sp_b s) = n /\ length (sp_c s) = n /\ (n <= length (sp_y s))%nat /\
      sp_b0 s = 0 /\ sp_c0 s = nth 0 (sp_c s) 0 /\ sp_table s = tab /\
      nth (n - 1) (sp_a s) 0 = 0 /\ nth (n - 1) (sp_b s) 0 = 0.
    Proof.
      destruct made_arrays as (L & T & Ey & b & _ & A).
      pose proof (ar_la _ _ _ _ A) as H1. pose proof (ar_lb _ _ _ _ A) as H2. pose proof (ar_lc _ _ _ _ A) as H3.
      pose proof (ar_al _ _ _ _ A) as H4. pose proof (ar_bl _ _ _ _ A) as H5.
      rewrite et_values_length in H1, H2, H3, H4, H5. rewrite Ey.
      repeat split; try assumption; [exact (ar_b0 _ _ _ _ A)|exact (ar_c0 _ _ _ _ A)].
    Qed.

    Lemma eval_left x : x < X 0 -> spline_eval s x = Ok (left_line s x) /\ spline_deriv s x = Ok (nth 0 (sp_c s) 0).
    Proof.
      intros H. destruct lens as (La & Lb & Lc & Ly & B0 & C0 & T & _). unfold spline_eval, spline_deriv. rewrite T, et_n_R.
      rewrite (index_below n lmin lmax n2) by exact H. cbn [bind]. change (Z.max (-1) 0) with 0%Z.
      rewrite !et_aget by lia. cbn [bind]. fold (gfirst n lmin lmax). change (gfirst n lmin lmax) with (X 0). numR.
      destruct (Rltb_spec x (X 0)); [|contradiction].
      replace (aget (sp_y s) 0) with (Ok (nth 0 (sp_y s) 0)) by (symmetry; apply (aget_nth (sp_y s) 0); lia).
      cbn [bind]. rewrite B0, C0. unfold left_line.
      dec_norm. split; f_equal; field.
    Qed.

    Lemma eval_piece x i : X 0 <= x -> et_index tab x = Ok (Z.of_nat i) -> (i < n)%nat -> (X (n - 1) < x -> i = (n - 1)%nat) ->
      spline_eval s x = Ok (piece s i x) /\ spline_deriv s x = Ok (slope s i x).
    Proof.
      intros H E B U. destruct lens as (La & Lb & Lc & Ly & B0 & C0 & T & Al & Bl). unfold spline_eval, spline_deriv. rewrite T, et_n_R.
      rewrite E. cbn [bind]. replace (Z.max (Z.of_nat i) 0) with (Z.of_nat i) by lia.
      rewrite !et_aget by lia. cbn [bind]. rewrite <- INR_IZR_INZ. change (gval n lmin lmax 0) with (X 0).
      replace (gval n lmin lmax (IZR (Z.of_nat n - 1))) with (X (n - 1))
        by (f_equal; rewrite minus_INR, minus_IZR, <- INR_IZR_INZ by lia; reflexivity).
      numR. destruct (Rltb_spec x (X 0)); [lra|].
      destruct (Rltb_spec (X (n - 1)) x) as [Q|Q].
      - rewrite (U Q) in *. replace (Z.of_nat n - 1)%Z with (Z.of_nat (n - 1)) by lia.
        rewrite !aget_nth by lia. cbn [bind]. unfold piece, slope. cbv zeta. rewrite Al, Bl.
        dec_norm. split; f_equal; field.
      - rewrite !aget_nth by lia. cbn [bind]. unfold piece, slope. cbv zeta.
        dec_norm. split; f_equal; field.
    Qed.

    Lemma choose_above x i : X 0 <= x ->
      ((X i <= x /\ ((S i < n)%nat -> x < X (S i) - numeric_epsilon)) \/
         (X i - numeric_epsilon <= x < X i /\ X 0 <= x)) -> (i < n)%nat -> X (n - 1) < x -> i = (n - 1)%nat.
    Proof.
      intros _ C B Q. pose proof eps_pos. destruct C as [[C1 C2]|[C _]].
      - destruct (Nat.eq_dec i (n - 1)) as [|NE]; [assumption|].
        assert (X (S i) <= X (n - 1)).
        { apply gval_le; [exact n2|exact lim|]. apply le_INR. lia. }
        pose proof (C2 ltac:(lia)). lra.
      - assert (X i <= X (n - 1)) by (apply gval_le; [exact n2|exact lim|]; apply le_INR; lia). lra.
    Qed.
  End Constructed.
End Grid.

(** ** C20: interpolation and continuity *)
Definition cubic (q : R -> R) : Prop := exists a b c d, forall x, q x = a * x ^ 3 + b * x ^ 2 + c * x + d.
Definition affine (q : R -> R) : Prop := exists c d, forall x, q x = c * x + d.

(** the tolerance windows below the grid energies, where the lookup already answers the next interval *)
Definition window (t : EnergyTable R) (x : R) : Prop :=
  exists k v, at_ t (S k) = Some v /\ v - numeric_epsilon <= x < v.

Lemma at_in n lmin lmax k v : at_ (et_make n lmin lmax) k = Some v -> (k < n)%nat /\ v = gval n lmin lmax (INR k).
Proof.
  intros H. assert (B : (k < n)%nat).
  { rewrite <- (et_values_length n lmin lmax). apply nth_error_Some. unfold at_ in H. congruence. }
  rewrite at_gval in H by assumption. split; congruence.
Qed.

Lemma deriv_local (f g : R -> R) x d e : 0 < e -> (forall z, Rabs (z - x) < e -> f z = g z) ->
  derivable_pt_lim g x d -> derivable_pt_lim f x d.
Proof.
  intros E H D eps Heps. destruct (D eps Heps) as [delta Hd].
  exists (mkposreal (Rmin delta e) (Rmin_pos _ _ (cond_pos delta) E)). cbn. intros h H0 Hh.
  rewrite !H.
  - apply Hd; [assumption|]. eapply Rlt_le_trans; [exact Hh|apply Rmin_l].
  - rewrite Rminus_diag_eq by reflexivity. now rewrite Rabs_R0.
  - replace (x + h - x) with h by ring. eapply Rlt_le_trans; [exact Hh|apply Rmin_r].
Qed.

Theorem C20_defined n lmin lmax y junk : (3 <= n)%nat -> (n <= length y)%nat ->
  exists s, make_spline (F:=R) (et_make n lmin lmax) y junk = Ok s.
Proof.
  intros N3 L. unfold make_spline. rewrite et_n_R. destruct (Nat.ltb_spec (length y) n); [lia|].
  cbv zeta. unfold spline_rows.
  destruct (trig_solve_ok (mkRow (lit 0.0) (lit 2.0) (fst junk) (lit 0.0)
      :: inner_rows (et_values (et_make n lmin lmax)) (firstn n y)
      ++ [mkRow (snd junk) (lit 2.0) (lit 0.0) (lit 0.0)]) _ _ eq_refl) as (b & -> & _).
  - cbn [rd]. numR. dec_norm. lra.
  - cbn [bind]. eauto.
Qed.
Print Assumptions C20_defined.

Section C20.
  Variables (n : nat) (lmin lmax : R).
  Hypothesis n3 : (3 <= n)%nat.
  Hypothesis nmax : (Z.of_nat n < 2147483648)%Z.
  Hypothesis lim : lmin < lmax.
  Hypothesis spacing : forall k a b, at_ (et_make n lmin lmax) k = Some a ->
    at_ (et_make n lmin lmax) (S k) = Some b -> numeric_epsilon < b - a.
  Variables (y : list R) (junk : R * R) (s : spline R).
  Hypothesis made : make_spline (et_make n lmin lmax) y junk = Ok s.
  Notation tab := (et_make n lmin lmax).
  Notation X i := (gval n lmin lmax (INR i)).

  Lemma gap k : (S k < n)%nat -> numeric_epsilon < X (S k) - X k.
  Proof. intros H. apply (spacing k); apply at_gval; lia. Qed.

  Lemma X_mono i j : (i <= j)%nat -> X i <= X j.
  Proof. intros H. apply gval_le; [lia|exact lim|]. now apply le_INR. Qed.
  Lemma X_less i j : (i < j)%nat -> X i < X j.
  Proof. intros H. now apply X_lt. Qed.

  (** outside the windows, and at the knots, the chosen piece is the one of the interval *)
  Lemma eval_outside x : ~ window tab x -> spline_eval s x = Ok (whole n lmin lmax s x).
  Proof.
    intros W. destruct (choose n lmin lmax n3 nmax lim x) as [H|(i & E & B & C)].
    - rewrite (whole_left n lmin lmax n3 s) by assumption. now apply (eval_left n lmin lmax n3 y junk s made).
    - assert (H0 : X 0 <= x).
      { destruct C as [[C _]|[_ C]]; [|exact C]. pose proof (X_mono 0 i ltac:(lia)). lra. }
      destruct (eval_piece n lmin lmax n3 y junk s made x i H0 E B) as [Ev _].
      { exact (choose_above n lmin lmax n3 lim x i H0 C B). }
      rewrite Ev. f_equal. symmetry. destruct C as [[C1 C2]|[C _]].
      + apply whole_piece; try assumption. pose proof eps_pos. intros Hs. specialize (C2 Hs). lra.
      + exfalso. apply W. destruct i as [|i]; [lra|]. exists i, (X (S i)). split; [now apply at_gval|exact C].
  Qed.

  Lemma knot_not_window k : (k < n)%nat -> ~ window tab (X k).
  Proof.
    intros K (j & v & Hv & W). apply at_in in Hv. destruct Hv as [J ->].
    destruct (Nat.lt_total k (S j)) as [Q|[Q|Q]].
    - assert (X k <= X j) by (apply X_mono; lia). pose proof (gap j J). lra.
    - rewrite Q in W. lra.
    - pose proof (X_less (S j) k Q). lra.
  Qed.

  Lemma whole_knot k : (k < n)%nat -> whole n lmin lmax s (X k) = nth k y 0.
  Proof.
    intros K. destruct (made_arrays n lmin lmax n3 y junk s made) as (_ & _ & Ey & _).
    rewrite (whole_piece n lmin lmax n3 lim s k); [rewrite piece_start, Ey; reflexivity|exact K|lra|].
    intros _. apply X_less. lia.
  Qed.

  Theorem C20_interpolates k v : at_ tab k = Some v -> spline_eval s v = Ok (nth k y 0).
  Proof.
    intros H. apply at_in in H. destruct H as [K ->].
    rewrite eval_outside by now apply knot_not_window. f_equal. now apply whole_knot.
  Qed.

  Lemma piece_cubic i : cubic (piece n lmin lmax s i).
  Proof.
    set (k := X i). set (a := nth i (sp_a s) 0). set (b := nth i (sp_b s) 0).
    set (c := nth i (sp_c s) 0). set (d := nth i (sp_y s) 0).
    exists a, (b - 3 * a * k), (c - 2 * b * k + 3 * a * k * k), (d - c * k + b * k * k - a * k * k * k).
    intros x. unfold piece. cbv zeta. fold k a b c d. ring.
  Qed.

  (** the spline is one continuous function, cubic between grid energies and straight outside, and
      evaluation follows it except in the windows, where the cubic of the next interval is used *)
  Theorem C20_continuous :
    exists S : R -> R,
      continuity S /\
      (forall k v, at_ tab k = Some v -> S v = nth k y 0) /\
      (forall x, ~ window tab x -> spline_eval s x = Ok (S x)) /\
      (exists q, affine q /\ forall x v, at_ tab 0 = Some v -> x <= v -> S x = q x) /\
      (exists q, affine q /\ forall x v, at_ tab (n - 1) = Some v -> v <= x -> S x = q x) /\
      (forall k a b, at_ tab k = Some a -> at_ tab (Datatypes.S k) = Some b ->
         exists q, cubic q /\ (forall x, a <= x <= b -> S x = q x) /\
           (forall x v, at_ tab 0 = Some v -> v <= x -> a - numeric_epsilon <= x < b - numeric_epsilon ->
              spline_eval s x = Ok (q x))) /\
      (forall x, ~ window tab x -> (forall k, at_ tab k <> Some x) ->
         exists d, spline_deriv s x = Ok d /\ derivable_pt_lim S x d).
  Proof.
    exists (whole n lmin lmax s).
    split; [exact (whole_cont n lmin lmax n3 lim y junk s made)|].
    split; [intros k v H; apply at_in in H; destruct H as [K ->]; now apply whole_knot|].
    split; [exact eval_outside|].
    split; [|split; [|split]].
    - exists (left_line n lmin lmax s). split.
      + exists (nth 0 (sp_c s) 0), (nth 0 (sp_y s) 0 - nth 0 (sp_c s) 0 * X 0). intros x. unfold left_line. ring.
      + intros x v Hv [L| ->]; apply at_in in Hv; destruct Hv as [_ ->].
        * now apply whole_left.
        * rewrite whole_knot by lia. unfold left_line.
          destruct (made_arrays n lmin lmax n3 y junk s made) as (_ & _ & Ey & _). rewrite Ey. ring.
    - exists (piece n lmin lmax s (n - 1)). destruct (lens n lmin lmax n3 y junk s made) as (_ & _ & _ & _ & _ & _ & _ & Al & Bl).
      split.
      + exists (nth (n - 1) (sp_c s) 0), (nth (n - 1) (sp_y s) 0 - nth (n - 1) (sp_c s) 0 * X (n - 1)).
        intros x. unfold piece. cbv zeta. rewrite Al, Bl. ring.
      + intros x v Hv L. apply at_in in Hv. destruct Hv as [_ ->]. apply whole_piece; try assumption; lia.
    - intros k a b Ha Hb. apply at_in in Ha, Hb. destruct Ha as [_ ->], Hb as [K ->].
      exists (piece n lmin lmax s k). split; [apply piece_cubic|]. split.
      + intros x [L [U| ->]].
        * apply whole_piece; try assumption; [lia|]. intros _. exact U.
        * rewrite whole_knot by lia. symmetry. replace (Datatypes.S k) with (k + 1)%nat by lia.
          rewrite (piece_end n lmin lmax n3 lim y junk s made) by lia.
          destruct (made_arrays n lmin lmax n3 y junk s made) as (_ & _ & Ey & _). now rewrite Ey.
      + intros x v Hv L [W1 W2]. apply at_in in Hv. destruct Hv as [_ ->]. pose proof eps_pos as EP.
        destruct (choose n lmin lmax n3 nmax lim x) as [H|(i & E & B & C)]; [lra|].
        assert (i = k).
        { destruct (Nat.lt_total i k) as [Q|[Q|Q]]; [exfalso|assumption|exfalso].
          - assert (X (Datatypes.S i) <= X k) by (apply X_mono; lia). pose proof (gap i ltac:(lia)).
            destruct C as [[C1 C2]|[C _]]; [specialize (C2 ltac:(lia)); lra|]. lra.
          - assert (X (Datatypes.S k) <= X i) by (apply X_mono; lia).
            destruct C as [[C1 C2]|[C _]]; lra. }
        subst i. apply (eval_piece n lmin lmax n3 y junk s made x k L E B).
        intros Q. pose proof (X_mono (Datatypes.S k) (n - 1) ltac:(lia)). lra.
    - intros x W K. destruct (choose n lmin lmax n3 nmax lim x) as [H|(i & E & B & C)].
      + destruct (eval_left n lmin lmax n3 y junk s made x H) as [_ D]. eexists. split; [exact D|].
        apply (deriv_local _ (left_line n lmin lmax s) x _ (X 0 - x)); [lra| |].
        * intros z Hz. apply whole_left; [exact n3|]. pose proof (Rle_abs (z - x)). lra.
        * unfold left_line. set (c := nth 0 (sp_c s) 0). set (y0 := nth 0 (sp_y s) 0). set (k := X 0).
          assert (D' : derivable_pt (fun x => c * (x - k) + y0) x) by reg.
          assert (E' : derive_pt (fun x => c * (x - k) + y0) x D' = c) by (reg; ring).
          apply (derive_pt_eq_1 (fun x => c * (x - k) + y0) x c D'). exact E'.
      + assert (H0 : X 0 <= x).
        { destruct C as [[C _]|[_ C]]; [|exact C]. pose proof (X_mono 0 i ltac:(lia)). lra. }
        destruct (eval_piece n lmin lmax n3 y junk s made x i H0 E B) as [_ D].
        { exact (choose_above n lmin lmax n3 lim x i H0 C B). }
        eexists. split; [exact D|]. pose proof eps_pos as EP.
        destruct C as [[C1 C2]|[C _]].
        2: { exfalso. apply W. destruct i as [|i]; [lra|]. exists i, (X (Datatypes.S i)). split; [now apply at_gval|exact C]. }
        assert (NE : X i <> x) by (intros Q; apply (K i); rewrite <- Q; now apply at_gval).
        set (e := if Nat.ltb (Datatypes.S i) n then Rmin (x - X i) (X (Datatypes.S i) - x) else x - X i).
        assert (EE : 0 < e /\ e <= x - X i /\ ((Datatypes.S i < n)%nat -> e <= X (Datatypes.S i) - x)).
        { unfold e. destruct (Nat.ltb_spec (Datatypes.S i) n) as [Q|Q].
          - pose proof (Rmin_l (x - X i) (X (Datatypes.S i) - x)). pose proof (Rmin_r (x - X i) (X (Datatypes.S i) - x)).
            specialize (C2 Q). split; [apply Rmin_pos; lra|]. split; [lra|]. intros _. lra.
          - split; [lra|]. split; [lra|]. intros; lia. }
        destruct EE as (E1 & E2 & E3).
        apply (deriv_local _ (piece n lmin lmax s i) x _ e); [exact E1| |apply piece_deriv].
        intros z Hz. apply Rabs_def2 in Hz. apply whole_piece; try assumption; [lra|].
        intros Q. specialize (E3 Q). lra.
  Qed.
End C20.
Print Assumptions C20_interpolates.
Print Assumptions C20_continuous.

Lemma library_grid_spacing k a b : at_ (et_make 600 (-3) 7) k = Some a -> at_ (et_make 600 (-3) 7) (S k) = Some b ->
  numeric_epsilon < b - a.
Proof.
  intros Ha Hb. rewrite <- energy_table_eq in Ha, Hb. pose proof (library_spacing k a b Ha Hb). pose proof eps_small. lra.
Qed.

(** every table of the library: 600 values *)
Example C20_case (y : list R) (junk : R * R) : length y = 600%nat ->
  exists s, make_spline energy_table y junk = Ok s /\
    forall k v, at_ energy_table k = Some v -> spline_eval s v = Ok (nth k y 0).
Proof.
  intros L. rewrite energy_table_eq. destruct (C20_defined 600 (-3) 7 y junk) as [s Hs]; [lia|lia|].
  exists s. split; [exact Hs|]. intros k v H.
  apply (C20_interpolates 600 (-3) 7 ltac:(lia) ltac:(lia) ltac:(lra) library_grid_spacing y junk s Hs k v H).
Qed.

(** ** C21: smoothness *)
Section C21.
  Variables (n : nat) (lmin lmax : R).
  Hypothesis n3 : (3 <= n)%nat.
  Hypothesis lim : lmin < lmax.
  Variables (y : list R) (junk : R * R) (s : spline R).
  Hypothesis made : make_spline (et_make n lmin lmax) y junk = Ok s.
  Notation tab := (et_make n lmin lmax).
  Notation X i := (gval n lmin lmax (INR i)).
  Notation slope := (slope n lmin lmax s).
  Notation curvature := (curvature n lmin lmax s).

  (** the second derivative is continuous at the interior grid energies *)
  Theorem C21_curvature k : (0 < k)%nat -> (k + 1 < n)%nat -> curvature (k - 1) (X k) = curvature k (X k).
  Proof.
    intros K1 K2. destruct (made_arrays n lmin lmax n3 y junk s made) as (_ & _ & _ & b & _ & A).
    unfold PropSpline.curvature. cbv zeta.
    rewrite (ar_sa _ _ _ _ A (k - 1)), (ar_sb _ _ _ _ A (k - 1)), (ar_sb _ _ _ _ A k)
      by (rewrite et_values_length; lia).
    replace (k - 1 + 1)%nat with k by lia. rewrite !X_nth by lia.
    pose proof (X_lt n lmin lmax n3 lim (k - 1) k ltac:(lia)). field. lra.
  Qed.

  (** the jump of the slope: the off-diagonals of the matrix are exchanged *)
  Theorem C21_jump k : Rabs (fst junk) < 2 -> Rabs (snd junk) < 2 -> (0 < k)%nat -> (k + 1 < n)%nat ->
    slope k (X k) - slope (k - 1) (X k) =
    ((X (k + 1) - X k) - (X k - X (k - 1))) * (curvature (k - 1) (X (k - 1)) - curvature k (X (k + 1))) / 6.
  Proof.
    intros J0 J1 K1 K2. destruct (made_arrays n lmin lmax n3 y junk s made) as (Ly & _ & _ & b & Sb & A).
    assert (LV : length (et_values tab) = n) by apply et_values_length.
    assert (LF : length (firstn n y) = n) by (rewrite firstn_length; lia).
    destruct (C22_spline_rows (et_values tab) (firstn n y) junk (tab_increasing n lmin lmax n3 lim)
                ltac:(lia) ltac:(lia) J0 J1) as (b' & Sb' & Sol & _).
    assert (b' = b) by congruence. subst b'. clear Sb'.
    destruct (inner_rows_nth (et_values tab) (firstn n y) (k - 1) ltac:(lia) ltac:(lia)) as (r & Hr & Ra & Rd & Rc & Rb).
    replace (k - 1 + 2)%nat with (k + 1)%nat in * by lia. replace (k - 1 + 1)%nat with k in * by lia.
    rewrite !X_nth in Ra, Rd, Rc, Rb by lia. rewrite !firstn_nth in Rb by lia.
    destruct Sol as [_ Sol]. unfold equation in Sol.
    assert (LR : length (spline_rows (et_values tab) (firstn n y) junk) = n)
      by (rewrite TotalProofs.spline_rows_length; lia).
    specialize (Sol k ltac:(lia) r). rewrite LR in Sol.
    assert (HR : nth_error (spline_rows (et_values tab) (firstn n y) junk) k = Some r).
    { unfold spline_rows. destruct k as [|k]; [lia|]. cbn [nth_error].
      rewrite nth_error_app1 by (rewrite inner_rows_length; lia). replace k with (S k - 1)%nat by lia. exact Hr. }
    specialize (Sol HR). destruct (Nat.eqb_spec k 0); [lia|]. destruct (Nat.eqb_spec (S k) n); [lia|].
    rewrite Ra, Rd, Rc, Rb in Sol. rewrite ?X_nth in Sol by lia. replace (S k) with (k + 1)%nat in Sol by lia.
    unfold PropSpline.slope, PropSpline.curvature. cbv zeta.
    rewrite (ar_sa _ _ _ _ A (k - 1)), (ar_sb _ _ _ _ A (k - 1)), (ar_sc _ _ _ _ A (k - 1)),
      (ar_sa _ _ _ _ A k), (ar_sb _ _ _ _ A k), (ar_sc _ _ _ _ A k) by lia.
    replace (k - 1 + 1)%nat with k by lia. rewrite !X_nth by lia.
    pose proof (X_lt n lmin lmax n3 lim (k - 1) k ltac:(lia)) as O1.
    pose proof (X_lt n lmin lmax n3 lim k (k + 1) ltac:(lia)) as O2.
    set (x0 := X (k - 1)) in *. set (x1 := X k) in *. set (x2 := X (k + 1)) in *.
    set (b0 := nth (k - 1) b 0) in *. set (b1 := nth k b 0) in *. set (b2 := nth (k + 1) b 0) in *.
    set (y0 := nth (k - 1) y 0) in *. set (y1 := nth k y 0) in *. set (y2 := nth (k + 1) y 0) in *.
    assert (E : (y2 - y1) / (x2 - x1) = / 3 * (x2 - x1) * b0 + 2 / 3 * (x2 - x0) * b1 + / 3 * (x1 - x0) * b2 + (y1 - y0) / (x1 - x0)) by lra.
    rewrite E. field. lra.
  Qed.

  (** equal spacing never happens on a logarithmic grid, so the slope is continuous exactly where the
      curvatures at the two neighbouring energies agree *)
  Theorem C21_smooth_iff k : Rabs (fst junk) < 2 -> Rabs (snd junk) < 2 -> (0 < k)%nat -> (k + 1 < n)%nat ->
    slope k (X k) = slope (k - 1) (X k) <-> curvature (k - 1) (X (k - 1)) = curvature k (X (k + 1)).
  Proof.
    intros J0 J1 K1 K2. pose proof (C21_jump k J0 J1 K1 K2) as J.
    assert (P : 0 < (X (k + 1) - X k) - (X k - X (k - 1))).
    { pose proof (gval_ratio n lmin lmax (INR (k - 1))) as R1. pose proof (gval_ratio n lmin lmax (INR k)) as R2.
      replace (INR (k - 1) + 1) with (INR k) in R1 by (rewrite minus_INR by lia; cbn; ring).
      replace (INR k + 1) with (INR (k + 1)) in R2 by (rewrite plus_INR; cbn; ring).
      pose proof (gval_pos n lmin lmax (INR (k - 1))) as P0. pose proof (gval_pos n lmin lmax (INR k)) as P1.
      set (rr := exp (LN10_ * gstep n lmin lmax)) in *.
      assert (RR : 1 < rr).
      { unfold rr. rewrite <- exp_0. apply exp_increasing. apply Rmult_lt_0_compat; [apply LN10_pos|].
        apply gstep_pos; [lia|exact lim]. }
      assert (E1 : X k = X (k - 1) * rr) by (rewrite <- R1; field; lra).
      assert (E2 : X (k + 1) = X k * rr) by (rewrite <- R2; field; lra).
      rewrite E2, E1. replace (X (k - 1) * rr * rr - X (k - 1) * rr - (X (k - 1) * rr - X (k - 1)))
        with (X (k - 1) * ((rr - 1) * (rr - 1))) by ring.
      apply Rmult_lt_0_compat; [assumption|]. apply Rmult_lt_0_compat; lra. }
    set (q := (X (k + 1) - X k) - (X k - X (k - 1))) in *.
    set (c0 := curvature (k - 1) (X (k - 1))) in *. set (c2 := curvature k (X (k + 1))) in *.
    split; intros H.
    - assert (Z : q * (c0 - c2) = 0) by lra. apply Rmult_integral in Z. destruct Z; lra.
    - rewrite H in J. replace (c2 - c2) with 0 in J by ring. lra.
  Qed.
End C21.
Print Assumptions C21_curvature.
Print Assumptions C21_jump.
Print Assumptions C21_smooth_iff.

(** every table of the library, at the second grid energy *)
Example C21_case (y : list R) : length y = 600%nat -> exists s, make_spline energy_table y (0, 0) = Ok s /\
  let X i := gval 600 (-3) 7 (INR i) in
  curvature 600 (-3) 7 s 0 (X 1%nat) = curvature 600 (-3) 7 s 1 (X 1%nat) /\
  slope 600 (-3) 7 s 1 (X 1%nat) - slope 600 (-3) 7 s 0 (X 1%nat) =
    ((X 2%nat - X 1%nat) - (X 1%nat - X 0%nat)) * (curvature 600 (-3) 7 s 0 (X 0%nat) - curvature 600 (-3) 7 s 1 (X 2%nat)) / 6.
Proof.
  intros L. rewrite energy_table_eq. destruct (C20_defined 600 (-3) 7 y (0, 0)) as [s Hs]; [lia|lia|].
  exists s. split; [exact Hs|]. cbv zeta. assert (LI : -3 < 7) by lra. split.
  - exact (C21_curvature 600 (-3) 7 ltac:(lia) LI y (0, 0) s Hs 1 ltac:(lia) ltac:(lia)).
  - apply (C21_jump 600 (-3) 7 ltac:(lia) LI y (0, 0) s Hs 1); try lia; cbn [fst snd]; rewrite Rabs_R0; lra.
Qed.

(** *** data with a prescribed curvature *)
Section Data.
  Variable x b : nat -> R.
  Definition row_lhs (i : nat) : R :=
    / 3 * (x (i + 1)%nat - x i) * b (i - 1)%nat + 2 / 3 * (x (i + 1)%nat - x (i - 1)%nat) * b i
    + / 3 * (x i - x (i - 1)%nat) * b (i + 1)%nat.
  Fixpoint chord (i : nat) : R := match i with O => 0 | S j => chord j + row_lhs i end.
  Fixpoint datum (i : nat) : R := match i with O => 0 | S j => datum j + chord j * (x (S j) - x j) end.
End Data.

Lemma seq_map_nth (f : nat -> R) n i : (i < n)%nat -> nth i (map f (seq 0 n)) 0 = f i.
Proof.
  intros H. apply nth_error_nth. erewrite map_nth_error; [reflexivity|].
  rewrite nth_error_nth' with (d := 0%nat) by (now rewrite seq_length). f_equal. now rewrite seq_nth.
Qed.

Lemma data_solution n lmin lmax (b : nat -> R) junk : (3 <= n)%nat -> lmin < lmax ->
  Rabs (fst junk) < 2 -> Rabs (snd junk) < 2 ->
  2 * b 0%nat + fst junk * b 1%nat = 0 -> snd junk * b (n - 2)%nat + 2 * b (n - 1)%nat = 0 ->
  let y := map (datum (fun i => gval n lmin lmax (INR i)) b) (seq 0 n) in
  trig_solve (spline_rows (et_values (et_make n lmin lmax)) (firstn n y) junk) = Ok (map b (seq 0 n)).
Proof.
  intros N3 Lim J0 J1 B0 B1. cbv zeta.
  set (x := fun i => gval n lmin lmax (INR i)). set (y := map (datum x b) (seq 0 n)).
  assert (Ly : length y = n) by (unfold y; rewrite map_length, seq_length; reflexivity).
  assert (Fy : firstn n y = y) by (rewrite <- Ly; apply firstn_all). rewrite Fy.
  assert (LV : length (et_values (et_make n lmin lmax)) = n) by apply et_values_length.
  destruct (C22_spline_rows (et_values (et_make n lmin lmax)) y junk (tab_increasing n lmin lmax N3 Lim)
              ltac:(lia) ltac:(lia) J0 J1) as (b' & Sb & _ & U).
  rewrite Sb. f_equal. symmetry. apply U. clear Sb U b'.
  assert (LR : length (spline_rows (et_values (et_make n lmin lmax)) y junk) = n)
    by (rewrite TotalProofs.spline_rows_length; lia).
  split; [rewrite map_length, seq_length; lia|]. rewrite LR. intros i Hi r Hr. rewrite LR.
  unfold spline_rows in Hr.
  destruct i as [|i].
  - injection Hr as <-. cbn [ra rd rc rb]. destruct (Nat.eqb_spec 1 n); [lia|]. destruct (Nat.eqb_spec 0 0); [|lia].
    rewrite !seq_map_nth by lia. numR. dec_norm. lra.
  - cbn [nth_error] in Hr. destruct (Nat.lt_total i (n - 2)) as [B|[B|B]].
    + rewrite nth_error_app1 in Hr by (rewrite inner_rows_length; lia).
      destruct (inner_rows_nth (et_values (et_make n lmin lmax)) y i ltac:(lia) ltac:(lia)) as (r' & E & Ra & Rd & Rc & Rb).
      assert (r' = r) by congruence. subst r'. rewrite Ra, Rd, Rc, Rb. rewrite !X_nth by (assumption || lia).
      unfold y. rewrite !seq_map_nth by lia. fold (x i) (x (i + 1)%nat) (x (i + 2)%nat).
      destruct (Nat.eqb_spec (S i) 0); [lia|]. destruct (Nat.eqb_spec (S (S i)) n); [lia|].
      replace (S i - 1)%nat with i by lia.
      replace (S (S i)) with (i + 2)%nat by lia. replace (S i) with (i + 1)%nat by lia.
      assert (O1 : x i < x (i + 1)%nat) by (apply X_lt; [exact N3|exact Lim|lia]).
      assert (O2 : x (i + 1)%nat < x (i + 2)%nat) by (apply X_lt; [exact N3|exact Lim|lia]).
      assert (D1 : datum x b (i + 1) = datum x b i + chord x b i * (x (i + 1)%nat - x i)).
      { replace (i + 1)%nat with (S i) by lia. reflexivity. }
      assert (D2 : datum x b (i + 2) = datum x b (i + 1) + (chord x b i + row_lhs x b (i + 1)) * (x (i + 2)%nat - x (i + 1)%nat)).
      { replace (i + 2)%nat with (S (S i)) by lia. replace (i + 1)%nat with (S i) by lia. reflexivity. }
      rewrite D2, D1. unfold row_lhs. replace (i + 1 + 1)%nat with (i + 2)%nat by lia.
      replace (i + 1 - 1)%nat with i by lia. field. lra.
    + subst i. rewrite nth_error_app2 in Hr by (rewrite inner_rows_length; lia).
      rewrite inner_rows_length in Hr by lia. rewrite LV, Nat.sub_diag in Hr. injection Hr as <-. cbn [ra rd rc rb].
      destruct (Nat.eqb_spec (S (n - 2)) 0); [lia|]. destruct (Nat.eqb_spec (S (S (n - 2))) n); [|lia].
      replace (S (n - 2) - 1)%nat with (n - 2)%nat by lia. replace (S (n - 2)) with (n - 1)%nat by lia.
      rewrite !seq_map_nth by lia. numR. dec_norm. lra.
    + lia.
Qed.

(** the witness: curvature only at the third grid energy (and what the leftovers force at the end) *)
Definition bump (n : nat) (junk : R * R) (i : nat) : R :=
  if Nat.eqb i 2 then 1 else if Nat.eqb i (n - 1) then (if Nat.eqb n 4 then - snd junk / 2 else 0) else 0.

Lemma bump_spline n lmin lmax junk : (4 <= n)%nat -> lmin < lmax ->
  Rabs (fst junk) < 2 -> Rabs (snd junk) < 2 ->
  exists y s, length y = n /\ make_spline (et_make n lmin lmax) y junk = Ok s /\
    let x i := gval n lmin lmax (INR i) in
    nth 0 (sp_y s) 0 = 0 /\ nth 1 (sp_y s) 0 = 0 /\
    nth 0 (sp_a s) 0 = 0 /\ nth 0 (sp_b s) 0 = 0 /\ nth 0 (sp_c s) 0 = 0 /\
    nth 1 (sp_a s) 0 = / 3 / (x 2%nat - x 1%nat) /\ nth 1 (sp_b s) 0 = 0 /\
    nth 1 (sp_c s) 0 = - (((x 2%nat - x 1%nat) - (x 1%nat - x 0%nat)) / 3).
Proof.
  intros N4 Lim J0 J1. set (x := fun i => gval n lmin lmax (INR i)).
  exists (map (datum x (bump n junk)) (seq 0 n)).
  destruct (C20_defined n lmin lmax (map (datum x (bump n junk)) (seq 0 n)) junk) as [s Hs].
  { lia. } { rewrite map_length, seq_length. lia. }
  exists s. split; [rewrite map_length, seq_length; reflexivity|]. split; [exact Hs|]. cbv zeta.
  destruct (made_arrays n lmin lmax ltac:(lia) _ junk s Hs) as (Ly & _ & Ey & b & Sb & A).
  assert (BB : b = map (bump n junk) (seq 0 n)).
  { pose proof (data_solution n lmin lmax (bump n junk) junk ltac:(lia) Lim J0 J1) as D. cbv zeta in D.
    fold x in D. rewrite D in Sb; [congruence| |].
    - unfold bump. destruct (Nat.eqb_spec 0 (n - 1)); [lia|]. destruct (Nat.eqb_spec 1 (n - 1)); [lia|]. destruct (Nat.eqb_spec 0 2); [lia|]. destruct (Nat.eqb_spec 1 2); [lia|]. ring.
    - unfold bump. destruct (Nat.eqb_spec (n - 2) 2); destruct (Nat.eqb_spec (n - 1) 2); try lia.
      + rewrite Nat.eqb_refl. destruct (Nat.eqb_spec n 4); [|lia]. field.
      + rewrite Nat.eqb_refl. destruct (Nat.eqb_spec (n - 2) (n - 1)); [lia|]. destruct (Nat.eqb_spec n 4); [lia|]. ring. }
  assert (B0 : nth 0 b 0 = 0).
  { rewrite BB, seq_map_nth by lia. unfold bump. destruct (Nat.eqb_spec 0 (n - 1)); [lia|reflexivity]. }
  assert (B1 : nth 1 b 0 = 0).
  { rewrite BB, seq_map_nth by lia. unfold bump. destruct (Nat.eqb_spec 1 (n - 1)); [lia|reflexivity]. }
  assert (B2 : nth 2 b 0 = 1) by (rewrite BB, seq_map_nth by lia; reflexivity).
  assert (C1 : bump n junk 0 = 0 /\ bump n junk 1 = 0 /\ bump n junk 2 = 1).
  { rewrite BB, seq_map_nth in B0, B1, B2 by lia. auto. }
  destruct C1 as (C0 & C1 & C2).
  assert (LV : length (et_values (et_make n lmin lmax)) = n) by apply et_values_length.
  assert (O1 : x 0%nat < x 1%nat) by (apply X_lt; [lia|exact Lim|lia]).
  assert (O2 : x 1%nat < x 2%nat) by (apply X_lt; [lia|exact Lim|lia]).
  assert (E1 : datum x (bump n junk) 1 = 0) by (cbn [datum chord]; ring).
  assert (E2 : datum x (bump n junk) 2 = / 3 * (x 1%nat - x 0%nat) * (x 2%nat - x 1%nat)).
  { cbn [datum chord]. unfold row_lhs. cbn [Nat.add Nat.sub]. rewrite C0, C1, C2. ring. }
  rewrite (ar_sa _ _ _ _ A 0), (ar_sb _ _ _ _ A 0), (ar_sc _ _ _ _ A 0),
    (ar_sa _ _ _ _ A 1), (ar_sb _ _ _ _ A 1), (ar_sc _ _ _ _ A 1) by lia.
  cbn [Nat.add]. rewrite Ey, !X_nth, B0, B1, B2, !seq_map_nth by lia. fold (x 0%nat) (x 1%nat) (x 2%nat).
  rewrite E1, E2. cbn [datum].
  repeat split; field; lra.
Qed.

(** on every logarithmic grid with at least four points there are data whose spline has a kink *)
Theorem C21_kink_refuted n lmin lmax junk : (4 <= n)%nat -> lmin < lmax ->
  Rabs (fst junk) < 2 -> Rabs (snd junk) < 2 ->
  exists y s, length y = n /\ make_spline (et_make n lmin lmax) y junk = Ok s /\
    slope n lmin lmax s 1 (gval n lmin lmax (INR 1)) <> slope n lmin lmax s 0 (gval n lmin lmax (INR 1)).
Proof.
  intros N4 Lim J0 J1. destruct (bump_spline n lmin lmax junk N4 Lim J0 J1) as (y & s & L & Hs & H).
  exists y, s. split; [exact L|]. split; [exact Hs|]. cbv zeta in H.
  destruct H as (Y0 & Y1 & A0 & B0 & C0 & A1 & B1 & C1). unfold slope. cbv zeta.
  rewrite A0, B0, C0, A1, B1, C1.
  assert (P : 0 < (gval n lmin lmax (INR 2) - gval n lmin lmax (INR 1)) - (gval n lmin lmax (INR 1) - gval n lmin lmax (INR 0))).
  { pose proof (gval_ratio n lmin lmax (INR 0)) as R1. pose proof (gval_ratio n lmin lmax (INR 1)) as R2.
    replace (INR 0 + 1) with (INR 1) in R1 by (cbn; ring). replace (INR 1 + 1) with (INR 2) in R2 by (cbn; ring).
    pose proof (gval_pos n lmin lmax (INR 0)) as P0. pose proof (gval_pos n lmin lmax (INR 1)) as P1.
    set (rr := exp (LN10_ * gstep n lmin lmax)) in *.
    assert (RR : 1 < rr).
    { unfold rr. rewrite <- exp_0. apply exp_increasing. apply Rmult_lt_0_compat; [apply LN10_pos|].
      apply gstep_pos; [lia|exact Lim]. }
    set (x0 := gval n lmin lmax (INR 0)) in *. set (x1 := gval n lmin lmax (INR 1)) in *. set (x2 := gval n lmin lmax (INR 2)) in *.
    assert (E1 : x1 = x0 * rr) by (rewrite <- R1; field; lra).
    assert (E2 : x2 = x1 * rr) by (rewrite <- R2; field; lra).
    rewrite E2, E1. replace (x0 * rr * rr - x0 * rr - (x0 * rr - x0)) with (x0 * ((rr - 1) * (rr - 1))) by ring.
    apply Rmult_lt_0_compat; [assumption|]. apply Rmult_lt_0_compat; lra. }
  intros Q. ring_simplify in Q. lra.
Qed.
Print Assumptions C21_kink_refuted.

(** in the library's energy table the evaluated spline jumps: inside the tolerance window below a grid
    energy the cubic of the next interval is already used, and the slopes differ there *)
Theorem C20_continuity_refuted :
  exists (y : list R) s v jump, length y = 600%nat /\ make_spline energy_table y (0, 0) = Ok s /\
    0 < jump /\ spline_eval s v = Ok jump /\
    exists w0, w0 < v /\ forall w, w0 < w < v -> spline_eval s w = Ok 0.
Proof.
  rewrite energy_table_eq.
  destruct (bump_spline 600 (-3) 7 (0, 0)) as (y & s & L & Hs & H); [lia|lra|cbn; rewrite Rabs_R0; lra|cbn; rewrite Rabs_R0; lra|].
  cbv zeta in H. destruct H as (Y0 & Y1 & A0 & B0 & C0 & A1 & B1 & C1).
  assert (N3 : (3 <= 600)%nat) by lia. assert (NM : (Z.of_nat 600 < 2147483648)%Z) by lia.
  assert (Lim : (-3 < 7)%R) by lra.
  set (x i := gval 600 (-3) 7 (INR i)) in *. change (gval 600 (-3) 7 (INR 0)) with (x 0%nat) in *.
  change (gval 600 (-3) 7 (INR 1)) with (x 1%nat) in *. change (gval 600 (-3) 7 (INR 2)) with (x 2%nat) in *.
  pose proof eps_pos as EP. pose proof eps_small as ES.
  assert (S0 : 1 / 100000 < x 1%nat - x 0%nat).
  { apply (library_spacing 0); rewrite energy_table_eq; apply at_gval; lia. }
  assert (S1 : 1 / 100000 < x 2%nat - x 1%nat).
  { apply (library_spacing 1); rewrite energy_table_eq; apply at_gval; lia. }
  (* which piece the lookup chooses *)
  assert (P0 : forall w, x 0%nat <= w < x 1%nat - numeric_epsilon -> spline_eval s w = Ok 0).
  { intros w W. destruct (choose 600 (-3) 7 N3 NM Lim w) as [Q|(i & E & B & C)]; [fold (x 0%nat) in Q; lra|].
    assert (i = 0%nat).
    { destruct i as [|i]; [reflexivity|exfalso].
      assert (x 1%nat <= x (S i)) by (apply gval_le; [lia|exact Lim|]; apply le_INR; lia).
      fold (x (S i)) in C. destruct C as [[C _]|[C _]]; lra. }
    subst i. destruct (eval_piece 600 (-3) 7 N3 y (0, 0) s Hs w 0) as [Ev _]; [apply W|exact E|lia| |].
    - intros Q. exfalso. assert (x 1%nat <= x (600 - 1)%nat) by (apply gval_le; [lia|exact Lim|]; apply le_INR; lia).
      fold (x (600 - 1)%nat) in Q. lra.
    - rewrite Ev. f_equal. unfold piece. cbv zeta. rewrite A0, B0, C0, Y0. ring. }
  exists y, s, (x 1%nat - numeric_epsilon),
    (numeric_epsilon * ((x 2%nat - x 1%nat) - (x 1%nat - x 0%nat)) / 3 - numeric_epsilon ^ 3 / (3 * (x 2%nat - x 1%nat))).
  split; [exact L|]. split; [exact Hs|].
  split; [|split].
  - (* the spacing grows by more than the tolerance allows *)
    pose proof (gval_ratio 600 (-3) 7 (INR 0)) as R1. pose proof (gval_ratio 600 (-3) 7 (INR 1)) as R2.
    replace (INR 0 + 1) with (INR 1) in R1 by (cbn; ring). replace (INR 1 + 1) with (INR 2) in R2 by (cbn; ring).
    fold (x 0%nat) (x 1%nat) (x 2%nat) in R1, R2.
    assert (P : 0 < x 0%nat) by apply gval_pos. assert (P1 : 0 < x 1%nat) by apply gval_pos.
    set (rr := exp (LN10_ * gstep 600 (-3) 7)) in *.
    assert (E1 : x 1%nat = x 0%nat * rr) by (rewrite <- R1; field; lra).
    assert (E2 : x 2%nat = x 1%nat * rr) by (rewrite <- R2; field; lra).
    assert (G : (x 2%nat - x 1%nat) - (x 1%nat - x 0%nat) = (x 1%nat - x 0%nat) * (rr - 1)) by (rewrite E2, E1; ring).
    assert (RR : 1 / 100000 < rr - 1).
    { assert (LG : 1 / 100 < LN10_ (F:=R) * gstep 600 (-3) 7).
      { unfold LN10_, gstep. numR. replace (INR 600) with 600 by (rewrite INR_IZR_INZ; reflexivity). dec_norm. lra. }
      assert (1 + LN10_ * gstep 600 (-3) 7 < rr) by (apply exp_ineq1; lra). lra. }
    assert (G2 : / 100000 * / 100000 < (x 2%nat - x 1%nat) - (x 1%nat - x 0%nat)).
    { rewrite G. apply Rmult_gt_0_lt_compat; lra. }
    set (q := (x 2%nat - x 1%nat) - (x 1%nat - x 0%nat)) in *. set (h := x 2%nat - x 1%nat) in *.
    set (e := numeric_epsilon (F:=R)) in *.
    replace (e * q / 3 - e ^ 3 / (3 * h)) with (e / 3 * (q - e * e * / h)) by (field; lra).
    apply Rmult_lt_0_compat; [lra|].
    assert (H1 : e * e < / 100000000000000 * / 100000000000000) by (apply Rmult_gt_0_lt_compat; lra).
    assert (H2 : / h < 100000).
    { replace 100000 with (/ (1 / 100000)) by field. apply Rinv_lt_contravar; [|lra]. apply Rmult_lt_0_compat; lra. }
    assert (H3 : e * e * / h < / 100000000000000 * / 100000000000000 * 100000).
    { apply Rmult_gt_0_lt_compat; [apply Rinv_0_lt_compat; lra|lra|assumption|assumption]. }
    lra.
  - destruct (choose 600 (-3) 7 N3 NM Lim (x 1%nat - numeric_epsilon)) as [Q|(i & E & B & C)]; [fold (x 0%nat) in Q; lra|].
    assert (i = 1%nat).
    { destruct i as [|[|i]]; [exfalso|reflexivity|exfalso].
      - fold (x 0%nat) (x 1%nat) in C. destruct C as [[_ C]|[C _]]; [specialize (C ltac:(lia))|]; lra.
      - assert (x 2%nat <= x (S (S i))) by (apply gval_le; [lia|exact Lim|]; apply le_INR; lia).
        fold (x (S (S i))) in C. destruct C as [[C _]|[C _]]; lra. }
    subst i. destruct (eval_piece 600 (-3) 7 N3 y (0, 0) s Hs (x 1%nat - numeric_epsilon) 1) as [Ev _]; [fold (x 0%nat); lra|exact E|lia| |].
    + intros Q. exfalso. assert (x 1%nat <= x (600 - 1)%nat) by (apply gval_le; [lia|exact Lim|]; apply le_INR; lia).
      fold (x (600 - 1)%nat) in Q. lra.
    + rewrite Ev. f_equal. unfold piece. cbv zeta. fold (x 1%nat). rewrite A1, B1, C1, Y1. field. lra.
  - exists (x 0%nat). split; [lra|]. intros w W. apply P0. lra.
Qed.
Print Assumptions C20_continuity_refuted.

(** ** C23: the two cells nobody writes *)
Section C23.
  Context {F : Type} {NF : Num F}.
  Local Open Scope num_scope.

  Theorem C23_reads_uninitialised n (xs ys : list F) : (2 <= n)%nat -> (lit 2.0 =? lit 0.0) = false ->
    mem_solve n (fst (fill_matrix n xs ys true)) (snd (fill_matrix n xs ys true)) = UB Uninitialised.
  Proof.
    intros N2 T. unfold fill_matrix.
    pose proof (loop_cells xs ys (n - 2)) as C. cbv zeta in C.
    set (mr := fold_left (fill_row xs ys) (seq 1 (n - 2)) (matrix_new, unwritten)) in *.
    replace 1%nat with (0 + 1)%nat at 1 by reflexivity. rewrite set_diag, set_upper, set_diag.
    replace (n - 2)%nat with (n - 1 - 1)%nat by lia. rewrite set_lower by lia. cbn [fst snd mx_a mx_d mx_c].
    destruct (C 0%nat) as (C1 & _). unfold mem_solve. cbn [mx_a mx_d mx_c].
    unfold get at 1. destruct (Nat.ltb_spec 0 n); [|lia]. rewrite put_other by lia. rewrite put_same. cbn [bind]. rewrite T.
    unfold get at 1. destruct (Nat.ltb_spec 0 n); [|lia]. rewrite put_other by lia. rewrite put_same. cbn [bind].
    destruct (n - 1)%nat as [|m] eqn:E; [lia|]. cbn [mem_forward]. cbn [mx_a mx_d mx_c].
    unfold get at 1. destruct (Nat.ltb_spec (1 - 1) n); [|lia]. rewrite put_other by lia.
    change (1 - 1)%nat with 0%nat. rewrite C1. reflexivity.
  Qed.

  (** with anything at all in those two cells, the solver sees the rows of the model *)
  Theorem C23_model n (xs ys : list F) junk : (2 <= n)%nat -> length xs = n -> length ys = n ->
    mem_solve n (leftovers n (fst (fill_matrix n xs ys true)) junk) (snd (fill_matrix n xs ys true)) =
    trig_solve (spline_rows xs ys junk).
  Proof.
    intros N2 Lx Ly. apply mem_solve_rows; [rewrite spline_rows_len; lia|].
    intros i r H. apply mem_rows with (1 := N2) (2 := Lx) (3 := Ly) (4 := H).
  Qed.
End C23.
Print Assumptions C23_reads_uninitialised.
Print Assumptions C23_model.

(** the answers depend on them *)
Theorem C23_leftovers_matter n lmin lmax : (3 <= n)%nat -> (Z.of_nat n < 2147483648)%Z -> lmin < lmax ->
  (forall k a b, at_ (et_make n lmin lmax) k = Some a -> at_ (et_make n lmin lmax) (S k) = Some b ->
     numeric_epsilon < b - a) ->
  exists y s1 s2, length y = n /\
    make_spline (et_make n lmin lmax) y (0, 0) = Ok s1 /\ make_spline (et_make n lmin lmax) y (1, 0) = Ok s2 /\
    (exists x, at_ (et_make n lmin lmax) 0 = Some x /\ spline_deriv s1 x <> spline_deriv s2 x) /\
    (forall x0, at_ (et_make n lmin lmax) 0 = Some x0 -> forall x, x < x0 -> spline_eval s1 x <> spline_eval s2 x).
Proof.
  intros N3 NM Lim Gap. set (x := fun i => gval n lmin lmax (INR i)).
  set (b := fun i : nat => if Nat.eqb i 1 then 1 else 0). set (y := map (datum x b) (seq 0 n)).
  assert (Ly : length y = n) by (unfold y; rewrite map_length, seq_length; reflexivity).
  destruct (C20_defined n lmin lmax y (0, 0) N3 ltac:(lia)) as [s1 H1].
  destruct (C20_defined n lmin lmax y (1, 0) N3 ltac:(lia)) as [s2 H2].
  exists y, s1, s2. split; [exact Ly|]. split; [exact H1|]. split; [exact H2|].
  assert (A0 : Rabs 0 < 2) by (rewrite Rabs_R0; lra). assert (A1 : Rabs 1 < 2) by (rewrite Rabs_R1; lra).
  assert (LV : length (et_values (et_make n lmin lmax)) = n) by apply et_values_length.
  assert (Fy : firstn n y = y) by (rewrite <- Ly at 1; apply firstn_all).
  assert (O : x 0%nat < x 1%nat) by (apply X_lt; [exact N3|exact Lim|lia]).
  assert (D0 : nth 0 y 0 = 0) by (unfold y; rewrite seq_map_nth by lia; reflexivity).
  assert (D1 : nth 1 y 0 = 0) by (unfold y; rewrite seq_map_nth by lia; cbn [datum chord]; ring).
  assert (C1 : nth 0 (sp_c s1) 0 = - ((x 1%nat - x 0%nat) / 3)).
  { destruct (made_arrays n lmin lmax N3 _ _ s1 H1) as (_ & _ & _ & b' & Sb & A).
    pose proof (data_solution n lmin lmax b (0, 0) N3 Lim A0 A0) as D. cbv zeta in D. fold x y in D.
    rewrite D in Sb.
    - injection Sb as <-. rewrite (ar_sc _ _ _ _ A 0) by lia. cbn [Nat.add]. rewrite !X_nth, !seq_map_nth, D0, D1 by lia.
      fold (x 0%nat) (x 1%nat). unfold b. cbn [Nat.eqb]. field. lra.
    - unfold b. cbn. ring.
    - unfold b. cbn [fst snd]. destruct (Nat.eqb_spec (n - 1) 1); [lia|]. ring. }
  assert (C2 : nth 0 (sp_c s2) 0 = 0).
  { destruct (made_arrays n lmin lmax N3 _ _ s2 H2) as (_ & _ & _ & b' & Sb & A).
    destruct (C22_spline_rows (et_values (et_make n lmin lmax)) (firstn n y) (1, 0) (tab_increasing n lmin lmax N3 Lim)
                ltac:(rewrite Fy; lia) ltac:(lia) A1 A0) as (b2 & Sb2 & [_ Sol] & _).
    assert (b2 = b') by congruence. subst b2.
    assert (LR : length (spline_rows (et_values (et_make n lmin lmax)) (firstn n y) (1, 0)) = n)
      by (rewrite TotalProofs.spline_rows_length; rewrite ?Fy; lia).
    specialize (Sol 0%nat ltac:(lia) _ eq_refl). rewrite LR in Sol. cbn [ra rd rc rb] in Sol.
    destruct (Nat.eqb_spec 0 0); [|lia]. destruct (Nat.eqb_spec 1 n); [lia|]. cbn [fst] in Sol.
    rewrite (ar_sc _ _ _ _ A 0) by lia. cbn [Nat.add]. rewrite !X_nth, D0, D1 by lia. fold (x 0%nat) (x 1%nat).
    numR. revert Sol. dec_norm. intros Sol.
    assert (2 * nth 0 b' 0 + nth 1 b' 0 = 0) by lra.
    replace (2 * nth 0 b' 0 + nth 1 b' 0) with 0. field. lra. }
  destruct (made_arrays n lmin lmax N3 _ _ s1 H1) as (_ & _ & Ey1 & _).
  destruct (made_arrays n lmin lmax N3 _ _ s2 H2) as (_ & _ & Ey2 & _).
  split.
  - exists (x 0%nat). split; [apply at_gval; lia|]. pose proof eps_pos as EP.
    assert (G0 : numeric_epsilon < x 1%nat - x 0%nat) by (apply (Gap 0%nat); apply at_gval; lia).
    destruct (choose n lmin lmax N3 NM Lim (x 0%nat)) as [Q|(i & E & B & C)]; [fold (x 0%nat) in Q; lra|].
    assert (i = 0%nat).
    { destruct i as [|i]; [reflexivity|exfalso].
      assert (x 1%nat <= x (S i)) by (apply gval_le; [lia|exact Lim|]; apply le_INR; lia).
      fold (x (S i)) in C. destruct C as [[C _]|[C _]]; lra. }
    subst i.
    assert (U : x (n - 1)%nat < x 0%nat -> 0%nat = (n - 1)%nat).
    { intros Q. exfalso. assert (x 0%nat <= x (n - 1)%nat) by (apply gval_le; [lia|exact Lim|]; apply le_INR; lia). lra. }
    destruct (eval_piece n lmin lmax N3 y _ s1 H1 (x 0%nat) 0 ltac:(fold (x 0%nat); lra) E B U) as [_ ->].
    destruct (eval_piece n lmin lmax N3 y _ s2 H2 (x 0%nat) 0 ltac:(fold (x 0%nat); lra) E B U) as [_ ->].
    intros Q. injection Q as Q. unfold slope in Q. cbv zeta in Q. fold (x 0%nat) in Q. rewrite C1, C2 in Q.
    replace (x 0%nat - x 0%nat) with 0 in Q by ring. lra.
  - intros x0 Hx v Hv. apply at_in in Hx. destruct Hx as [_ ->]. fold (x 0%nat) in Hv.
    destruct (eval_left n lmin lmax N3 y _ s1 H1 v Hv) as [-> _].
    destruct (eval_left n lmin lmax N3 y _ s2 H2 v Hv) as [-> _].
    intros Q. injection Q as Q. unfold left_line in Q. fold (x 0%nat) in Q. rewrite C1, C2, Ey1, Ey2, D0 in Q.
    assert (Z : (x 1%nat - x 0%nat) * (v - x 0%nat) = 0) by lra. apply Rmult_integral in Z. destruct Z; lra.
Qed.
Print Assumptions C23_leftovers_matter.

(** in doubles, whatever the data *)
Example C23_doubles lm (xs ys : list PrimFloat.float) :
  mem_solve (N := NumF lm) 600 (fst (fill_matrix (N := NumF lm) 600 xs ys true)) (snd (fill_matrix (N := NumF lm) 600 xs ys true)) = UB Uninitialised.
Proof. exact (C23_reads_uninitialised (NF := NumF lm) 600 xs ys ltac:(lia) eq_refl). Qed.

(** on the library's table *)
Example C23_case :
  exists y s1 s2, length y = 600%nat /\
    make_spline energy_table y (0, 0) = Ok s1 /\ make_spline energy_table y (1, 0) = Ok s2 /\
    exists x, spline_deriv s1 x <> spline_deriv s2 x.
Proof.
  rewrite energy_table_eq.
  destruct (C23_leftovers_matter 600 (-3) 7 ltac:(lia) ltac:(lia) ltac:(lra) library_grid_spacing)
    as (y & s1 & s2 & L & H1 & H2 & (x & _ & H3) & _).
  exists y, s1, s2. split; [exact L|]. split; [exact H1|]. split; [exact H2|]. exists x. exact H3.
Qed.

(** ** C24: linearity in the data *)
Inductive lin_rows (al be : R) : list (row R) -> list (row R) -> list (row R) -> Prop :=
| lr_nil : lin_rows al be [] [] []
| lr_cons r r1 r2 l l1 l2 : ra r = ra r1 -> ra r = ra r2 -> rd r = rd r1 -> rd r = rd r2 -> rc r = rc r1 -> rc r = rc r2 ->
    rb r = al * rb r1 + be * rb r2 -> lin_rows al be l l1 l2 -> lin_rows al be (r :: l) (r1 :: l1) (r2 :: l2).

Definition lin3 (al be : R) (l l1 l2 : list R) : Prop :=
  length l = length l1 /\ length l = length l2 /\ forall i, nth i l 0 = al * nth i l1 0 + be * nth i l2 0.

Lemma lin3_cons al be x x1 x2 l l1 l2 : x = al * x1 + be * x2 -> lin3 al be l l1 l2 -> lin3 al be (x :: l) (x1 :: l1) (x2 :: l2).
Proof.
  intros E (L1 & L2 & H). split; [cbn; now rewrite L1|]. split; [cbn; now rewrite L2|].
  intros [|i]; [exact E|apply H].
Qed.
Lemma lin3_hd al be l l1 l2 : lin3 al be l l1 l2 -> hd 0 l = al * hd 0 l1 + be * hd 0 l2.
Proof. intros (_ & _ & H). specialize (H 0%nat). destruct l, l1, l2; exact H. Qed.
Lemma lin3_zero al be n : lin3 al be (repeat 0 n) (repeat 0 n) (repeat 0 n).
Proof.
  split; [reflexivity|]. split; [reflexivity|]. intros i.
  replace (nth i (repeat 0 n) 0) with 0; [ring|]. symmetry. revert i. induction n as [|n IH]; intros [|i]; cbn; auto.
Qed.

Lemma forward_lin al be l l1 l2 : lin_rows al be l l1 l2 -> forall c bet x x1 x2, x = al * x1 + be * x2 ->
  match trig_forward c bet x l, trig_forward c bet x1 l1, trig_forward c bet x2 l2 with
  | Some g, Some g1, Some g2 => map fst g = map fst g1 /\ map fst g = map fst g2 /\ lin3 al be (map snd g) (map snd g1) (map snd g2)
  | None, None, None => True
  | _, _, _ => False
  end.
Proof.
  induction 1 as [|r r1 r2 l l1 l2 A1 A2 D1 D2 C1 C2 B _ IH]; intros c bet x x1 x2 E.
  - cbn. split; [reflexivity|]. split; [reflexivity|]. split; [reflexivity|]. split; [reflexivity|].
    intros [|i]; cbn; ring.
  - cbn [trig_forward]. rewrite <- A1, <- A2, <- D1, <- D2, <- C1, <- C2.
    destruct (feqb (fsub (rd r) (fmul (ra r) (fdiv c bet))) (lit 0.0)) eqn:Z; [exact I|].
    specialize (IH (rc r) (fsub (rd r) (fmul (ra r) (fdiv c bet)))
      (fdiv (fsub (rb r) (fmul (ra r) x)) (fsub (rd r) (fmul (ra r) (fdiv c bet))))
      (fdiv (fsub (rb r1) (fmul (ra r) x1)) (fsub (rd r) (fmul (ra r) (fdiv c bet))))
      (fdiv (fsub (rb r2) (fmul (ra r) x2)) (fsub (rd r) (fmul (ra r) (fdiv c bet))))).
    assert (Q : fdiv (fsub (rb r) (fmul (ra r) x)) (fsub (rd r) (fmul (ra r) (fdiv c bet))) =
      al * fdiv (fsub (rb r1) (fmul (ra r) x1)) (fsub (rd r) (fmul (ra r) (fdiv c bet))) +
      be * fdiv (fsub (rb r2) (fmul (ra r) x2)) (fsub (rd r) (fmul (ra r) (fdiv c bet)))).
    { numR. rewrite B, E. unfold Rdiv. ring. }
    specialize (IH Q).
    destruct (trig_forward _ _ _ l); destruct (trig_forward _ _ _ l1); try contradiction;
      destruct (trig_forward _ _ _ l2); try contradiction; [|exact I].
    destruct IH as (I1 & I2 & I3). cbn [map fst snd]. split; [now rewrite I1|]. split; [now rewrite I2|].
    now apply lin3_cons.
Qed.

Lemma back_lin al be : forall (g g1 g2 : list (R * R)) x x1 x2,
  map fst g = map fst g1 -> map fst g = map fst g2 -> lin3 al be (map snd g) (map snd g1) (map snd g2) ->
  x = al * x1 + be * x2 -> lin3 al be (trig_back x g) (trig_back x1 g1) (trig_back x2 g2).
Proof.
  induction g as [|[a v] g IH]; intros [|[a1 v1] g1] [|[a2 v2] g2] x x1 x2 F1 F2 (L1 & L2 & H) E; try discriminate.
  - cbn. apply lin3_cons; [exact E|]. split; [reflexivity|]. split; [reflexivity|]. intros [|i]; cbn; ring.
  - cbn [map fst snd length] in *. injection F1 as <- F1. injection F2 as <- F2. injection L1 as L1. injection L2 as L2.
    assert (V : v = al * v1 + be * v2) by exact (H 0%nat).
    assert (T : lin3 al be (map snd g) (map snd g1) (map snd g2)).
    { split; [exact L1|]. split; [exact L2|]. intros i. exact (H (S i)). }
    specialize (IH g1 g2 v v1 v2 F1 F2 T V). cbn [trig_back]. apply lin3_cons; [|exact IH].
    pose proof (lin3_hd _ _ _ _ _ IH) as HH. rewrite lit0_. numR. rewrite HH, E. ring.
Qed.

Lemma solve_lin al be l l1 l2 b b1 b2 : lin_rows al be l l1 l2 ->
  trig_solve l = Ok b -> trig_solve l1 = Ok b1 -> trig_solve l2 = Ok b2 -> lin3 al be b b1 b2.
Proof.
  intros H. destruct H as [|r r1 r2 l l1 l2 A1 A2 D1 D2 C1 C2 B H]; [discriminate|].
  unfold trig_solve. rewrite <- D1, <- D2, <- C1, <- C2.
  destruct (feqb (rd r) (lit 0.0)); [discriminate|].
  assert (Q : fdiv (rb r) (rd r) = al * fdiv (rb r1) (rd r) + be * fdiv (rb r2) (rd r)) by (numR; rewrite B; unfold Rdiv; ring).
  pose proof (forward_lin al be l l1 l2 H (rc r) (rd r) _ _ _ Q) as FL.
  assert (LL : length l = length l1 /\ length l = length l2).
  { clear - H. induction H; [split; reflexivity|]. destruct IHlin_rows. cbn. split; congruence. }
  destruct LL as [L1 L2].
  destruct (trig_forward _ _ _ l); destruct (trig_forward _ _ _ l1); try contradiction;
      destruct (trig_forward _ _ _ l2); try contradiction.
  - destruct FL as (F1 & F2 & F3). intros E E1 E2. injection E as <-. injection E1 as <-. injection E2 as <-.
    now apply back_lin.
  - rewrite lit0_. cbn [length]. rewrite <- L1, <- L2. set (z := repeat 0 (S (length l))). intros E E1 E2.
    replace b with z by congruence. replace b1 with z by congruence. replace b2 with z by congruence.
    apply lin3_zero.
Qed.

Lemma lin_rows_app al be l l1 l2 m m1 m2 : lin_rows al be l l1 l2 -> lin_rows al be m m1 m2 ->
  lin_rows al be (l ++ m) (l1 ++ m1) (l2 ++ m2).
Proof. induction 1; intros; [assumption|]. cbn. constructor; auto. Qed.

Lemma inner_lin al be : forall xs y y1 y2, lin3 al be y y1 y2 -> length xs = length y ->
  lin_rows al be (inner_rows xs y) (inner_rows xs y1) (inner_rows xs y2).
Proof.
  induction xs as [|x xs IH]; intros y y1 y2 (L1 & L2 & H) L.
  - destruct y, y1, y2; try discriminate. constructor.
  - destruct y as [|v y], y1 as [|v1 y1], y2 as [|v2 y2]; try discriminate. cbn [length] in *.
    injection L as L. injection L1 as L1. injection L2 as L2.
    assert (T : lin3 al be y y1 y2) by (split; [exact L1|]; split; [exact L2|]; intros i; exact (H (S i))).
    specialize (IH y y1 y2 T L). destruct xs as [|x0 [|xp xs]].
    + destruct y, y1, y2; try discriminate. constructor.
    + destruct y as [|? [|]], y1 as [|? [|]], y2 as [|? [|]]; try discriminate. constructor.
    + destruct y as [|v0 [|vp y]], y1 as [|v01 [|vp1 y1]], y2 as [|v02 [|vp2 y2]]; try discriminate.
      pose proof (H 0%nat) as H0. pose proof (H 1%nat) as H1. pose proof (H 2%nat) as H2. cbn [nth] in H0, H1, H2.
      change (inner_rows (x :: x0 :: xp :: xs) (v :: v0 :: vp :: y)) with
        (mkRow (lit 1.0 / lit 3.0 * (xp - x0)) (lit 2.0 / lit 3.0 * (xp - x)) (lit 1.0 / lit 3.0 * (x0 - x))
          ((vp - v0) / (xp - x0) - (v0 - v) / (x0 - x))%num :: inner_rows (x0 :: xp :: xs) (v0 :: vp :: y))%num.
      change (inner_rows (x :: x0 :: xp :: xs) (v1 :: v01 :: vp1 :: y1)) with
        (mkRow (lit 1.0 / lit 3.0 * (xp - x0)) (lit 2.0 / lit 3.0 * (xp - x)) (lit 1.0 / lit 3.0 * (x0 - x))
          ((vp1 - v01) / (xp - x0) - (v01 - v1) / (x0 - x))%num :: inner_rows (x0 :: xp :: xs) (v01 :: vp1 :: y1))%num.
      change (inner_rows (x :: x0 :: xp :: xs) (v2 :: v02 :: vp2 :: y2)) with
        (mkRow (lit 1.0 / lit 3.0 * (xp - x0)) (lit 2.0 / lit 3.0 * (xp - x)) (lit 1.0 / lit 3.0 * (x0 - x))
          ((vp2 - v02) / (xp - x0) - (v02 - v2) / (x0 - x))%num :: inner_rows (x0 :: xp :: xs) (v02 :: vp2 :: y2))%num.
      constructor; try reflexivity; [|exact IH]. cbn [rb]. rewrite H0, H1, H2. numR. unfold Rdiv. ring.
Qed.

Section C24.
  Variables (n : nat) (lmin lmax : R).
  Hypothesis n3 : (3 <= n)%nat.
  Hypothesis nmax : (Z.of_nat n < 2147483648)%Z.
  Hypothesis lim : lmin < lmax.
  Notation tab := (et_make n lmin lmax).
  Notation X i := (gval n lmin lmax (INR i)).

  Theorem C24_linear al be y y1 y2 junk s s1 s2 :
    length y = length y1 -> length y = length y2 ->
    (forall i, nth i y 0 = al * nth i y1 0 + be * nth i y2 0) ->
    make_spline tab y junk = Ok s -> make_spline tab y1 junk = Ok s1 -> make_spline tab y2 junk = Ok s2 ->
    forall x, exists v1 v2 d1 d2,
      spline_eval s1 x = Ok v1 /\ spline_eval s2 x = Ok v2 /\ spline_eval s x = Ok (al * v1 + be * v2) /\
      spline_deriv s1 x = Ok d1 /\ spline_deriv s2 x = Ok d2 /\ spline_deriv s x = Ok (al * d1 + be * d2).
  Proof.
    intros L1 L2 H M M1 M2.
    destruct (made_arrays n lmin lmax n3 y junk s M) as (Ly & _ & Ey & b & Sb & A).
    destruct (made_arrays n lmin lmax n3 y1 junk s1 M1) as (Ly1 & _ & Ey1 & b1 & Sb1 & A1).
    destruct (made_arrays n lmin lmax n3 y2 junk s2 M2) as (Ly2 & _ & Ey2 & b2 & Sb2 & A2).
    assert (LV : length (et_values tab) = n) by apply et_values_length.
    assert (B : lin3 al be b b1 b2).
    { eapply solve_lin; [|exact Sb|exact Sb1|exact Sb2]. unfold spline_rows.
      constructor; try reflexivity; [cbn [rb]; rewrite lit0_; ring|].
      apply lin_rows_app.
      - apply inner_lin; [|rewrite firstn_length; lia]. split; [rewrite !firstn_length; lia|].
        split; [rewrite !firstn_length; lia|]. intros i. destruct (Nat.lt_ge_cases i n).
        + rewrite !firstn_nth by lia. apply H.
        + rewrite !nth_overflow by (rewrite firstn_length; lia). ring.
      - constructor; try reflexivity; [cbn [rb]; rewrite lit0_; ring|constructor]. }
    destruct B as (_ & _ & B).
    assert (LA : forall i, (i < n)%nat -> nth i (sp_a s) 0 = al * nth i (sp_a s1) 0 + be * nth i (sp_a s2) 0).
    { intros i Hi. destruct (Nat.eq_dec i (n - 1)) as [->|].
      - pose proof (ar_al _ _ _ _ A) as P. pose proof (ar_al _ _ _ _ A1) as P1. pose proof (ar_al _ _ _ _ A2) as P2.
        rewrite LV in P, P1, P2. rewrite P, P1, P2. ring.
      - rewrite (ar_sa _ _ _ _ A), (ar_sa _ _ _ _ A1), (ar_sa _ _ _ _ A2) by lia. rewrite !B. unfold Rdiv. ring. }
    assert (LB : forall i, (i < n)%nat -> nth i (sp_b s) 0 = al * nth i (sp_b s1) 0 + be * nth i (sp_b s2) 0).
    { intros i Hi. destruct (Nat.eq_dec i (n - 1)) as [->|].
      - pose proof (ar_bl _ _ _ _ A) as P. pose proof (ar_bl _ _ _ _ A1) as P1. pose proof (ar_bl _ _ _ _ A2) as P2.
        rewrite LV in P, P1, P2. rewrite P, P1, P2. ring.
      - rewrite (ar_sb _ _ _ _ A), (ar_sb _ _ _ _ A1), (ar_sb _ _ _ _ A2) by lia. apply B. }
    assert (LC : forall i, (i < n)%nat -> nth i (sp_c s) 0 = al * nth i (sp_c s1) 0 + be * nth i (sp_c s2) 0).
    { assert (LC' : forall i, (i + 1 < n)%nat -> nth i (sp_c s) 0 = al * nth i (sp_c s1) 0 + be * nth i (sp_c s2) 0).
      { intros i Hi. rewrite (ar_sc _ _ _ _ A), (ar_sc _ _ _ _ A1), (ar_sc _ _ _ _ A2) by lia. rewrite !B, !H. unfold Rdiv. ring. }
      intros i Hi. destruct (Nat.eq_dec i (n - 1)) as [->|]; [|apply LC'; lia].
      pose proof (ar_cl _ _ _ _ A) as P. pose proof (ar_cl _ _ _ _ A1) as P1. pose proof (ar_cl _ _ _ _ A2) as P2.
      rewrite LV in P, P1, P2. rewrite P, P1, P2, LA, !B, LC' by lia. ring. }
    intros x. destruct (choose n lmin lmax n3 nmax lim x) as [Q|(i & E & Bi & C)].
    - destruct (eval_left n lmin lmax n3 y junk s M x Q) as [E D].
      destruct (eval_left n lmin lmax n3 y1 junk s1 M1 x Q) as [E1 D1].
      destruct (eval_left n lmin lmax n3 y2 junk s2 M2 x Q) as [E2 D2].
      do 4 eexists. split; [exact E1|]. split; [exact E2|]. split; [|split; [exact D1|]; split; [exact D2|]].
      + rewrite E. f_equal. unfold left_line. rewrite Ey, Ey1, Ey2, LC, H by lia. ring.
      + rewrite D, LC by lia. reflexivity.
    - assert (H0 : X 0 <= x).
      { destruct C as [[C _]|[_ C]]; [|exact C]. pose proof (X_mono n lmin lmax n3 lim 0 i ltac:(lia)). lra. }
      pose proof (choose_above n lmin lmax n3 lim x i H0 C Bi) as U.
      destruct (eval_piece n lmin lmax n3 y junk s M x i H0 E Bi U) as [Ev D].
      destruct (eval_piece n lmin lmax n3 y1 junk s1 M1 x i H0 E Bi U) as [Ev1 D1].
      destruct (eval_piece n lmin lmax n3 y2 junk s2 M2 x i H0 E Bi U) as [Ev2 D2].
      do 4 eexists. split; [exact Ev1|]. split; [exact Ev2|]. split; [|split; [exact D1|]; split; [exact D2|]].
      + rewrite Ev. f_equal. unfold piece. cbv zeta. rewrite Ey, Ey1, Ey2, LA, LB, LC, H by lia. ring.
      + rewrite D. f_equal. unfold slope. cbv zeta. rewrite LA, LB, LC by lia. ring.
  Qed.
End C24.
Print Assumptions C24_linear.

(** tables of the library: the spline of a sum is the sum of the splines *)
Example C24_case (f g : nat -> R) junk :
  exists s s1 s2,
    make_spline energy_table (map (fun i => f i + g i) (seq 0 600)) junk = Ok s /\
    make_spline energy_table (map f (seq 0 600)) junk = Ok s1 /\
    make_spline energy_table (map g (seq 0 600)) junk = Ok s2 /\
    forall x, exists v1 v2, spline_eval s1 x = Ok v1 /\ spline_eval s2 x = Ok v2 /\ spline_eval s x = Ok (v1 + v2).
Proof.
  rewrite energy_table_eq.
  assert (L : forall h : nat -> R, length (map h (seq 0 600)) = 600%nat) by (intros h; rewrite map_length; apply seq_length).
  pose proof (L f) as L1. pose proof (L g) as L2. pose proof (L (fun i => f i + g i)) as L0.
  assert (H : forall i, nth i (map (fun i => f i + g i) (seq 0 600)) 0 =
    1 * nth i (map f (seq 0 600)) 0 + 1 * nth i (map g (seq 0 600)) 0).
  { intros i. destruct (Nat.lt_ge_cases i 600) as [Q|Q].
    - rewrite !seq_map_nth by exact Q. ring.
    - rewrite !nth_overflow by (rewrite L; exact Q). ring. }
  generalize dependent (map (fun i => f i + g i) (seq 0 600)). intros y L0 H. clear L.
  generalize dependent (map f (seq 0 600)). generalize dependent (map g (seq 0 600)). intros y2 L2 y1 L1 H.
  destruct (C20_defined 600 (-3) 7 y junk) as [s Hs]; [lia|lia|].
  destruct (C20_defined 600 (-3) 7 y1 junk) as [s1 Hs1]; [lia|lia|].
  destruct (C20_defined 600 (-3) 7 y2 junk) as [s2 Hs2]; [lia|lia|].
  exists s, s1, s2. split; [exact Hs|]. split; [exact Hs1|]. split; [exact Hs2|]. intros x.
  destruct (C24_linear 600 (-3) 7 ltac:(lia) ltac:(lia) ltac:(lra) 1 1 y y1 y2 junk s s1 s2
              (eq_trans L0 (eq_sym L1)) (eq_trans L0 (eq_sym L2)) H Hs Hs1 Hs2 x) as (v1 & v2 & d1 & d2 & E1 & E2 & E & _).
  exists v1, v2. split; [exact E1|]. split; [exact E2|]. rewrite E. f_equal. ring.
Qed.
