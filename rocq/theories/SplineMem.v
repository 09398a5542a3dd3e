(** * The spline matrix in memory: include/catima/spline.h:43-99, 169-207

    The three arrays of the matrix and the right-hand side hold cells that may never have been written.
    A read of such a cell is undefined.  [Spline.v] uses the rows the solver sees once the two cells
    that stay unwritten are given values; [mem_rows] below relates the two. *)
From Coq Require Import ZArith List Bool Lia.
From Verif Require Import Num Structures EnergyTable Spline.
Import ListNotations.

(** an array of n elements *)
Definition arr (F : Type) : Type := nat -> option F.
Definition unwritten {F} : arr F := fun _ => None.
Definition put {F} (m : arr F) (i : nat) (v : F) : arr F := fun k => if Nat.eqb k i then Some v else m k.
Definition get {F} (n : nat) (m : arr F) (i : nat) : outcome F :=
  if (i <? n)%nat then match m i with Some v => Ok v | None => UB Uninitialised end else UB OutOfBounds.

Record matrix (F : Type) := mkMx { mx_a : arr F; mx_d : arr F; mx_c : arr F }.
Arguments mkMx {F}. Arguments mx_a {F}. Arguments mx_d {F}. Arguments mx_c {F}.

Section Mem.
  Context {F : Type} {N : Num F}.
  Local Open Scope num_scope.

  (** spline.h:51: the constructor writes nothing *)
  Definition matrix_new : matrix F := mkMx unwritten unwritten unwritten.

  (** spline.h:60-67: A(i,j) = v through the writing access operator *)
  Definition set_A (m : matrix F) (i j : nat) (v : F) : matrix F :=
    let k := (Z.of_nat j - Z.of_nat i)%Z in
    if (k =? -1)%Z then mkMx (mx_a m) (mx_d m) (put (mx_c m) i v)
    else if (k =? 0)%Z then mkMx (mx_a m) (put (mx_d m) i v) (mx_c m)
    else mkMx (put (mx_a m) i v) (mx_d m) (mx_c m).

  (** spline.h:178-184 *)
  Definition fill_row (xs ys : list F) (mr : matrix F * arr F) (i : nat) : matrix F * arr F :=
    let x k := nth k xs (lit 0.0) in
    let y k := nth k ys (lit 0.0) in
    let m := fst mr in
    let m := set_A m i (i - 1) (lit 1.0 / lit 3.0 * (x i - x (i - 1)%nat)) in
    let m := set_A m i i (lit 2.0 / lit 3.0 * (x (i + 1)%nat - x (i - 1)%nat)) in
    let m := set_A m i (i + 1) (lit 1.0 / lit 3.0 * (x (i + 1)%nat - x i)) in
    (m, put (snd mr) i ((y (i + 1)%nat - y i) / (x (i + 1)%nat - x i)
                        - (y i - y (i - 1)%nat) / (x i - x (i - 1)%nat))).

  (** spline.h:176-206; [second] is boundary_second_deriv *)
  Definition fill_matrix (n : nat) (xs ys : list F) (second : bool) : matrix F * arr F :=
    let x k := nth k xs (lit 0.0) in
    let y k := nth k ys (lit 0.0) in
    let mr := fold_left (fill_row xs ys) (seq 1 (n - 2)) (matrix_new, unwritten) in
    let m := fst mr in
    let r := snd mr in
    if second then
      let m := set_A m 0 0 (lit 2.0) in
      let m := set_A m 0 1 (lit 0.0) in
      let r := put r 0 (lit 0.0) in
      let m := set_A m (n - 1) (n - 1) (lit 2.0) in
      let m := set_A m (n - 1) (n - 2) (lit 0.0) in
      (m, put r (n - 1) (lit 0.0))
    else
      let m := set_A m 0 0 (lit 2.0 * (x 1%nat - x 0%nat)) in
      let m := set_A m 0 1 (lit 1.0 * (x 1%nat - x 0%nat)) in
      let r := put r 0 (lit 3.0 * ((y 1%nat - y 0%nat) / (x 1%nat - x 0%nat) - lit 0.0)) in
      let m := set_A m (n - 1) (n - 1) (lit 2.0 * (x (n - 1)%nat - x (n - 2)%nat)) in
      let m := set_A m (n - 1) (n - 2) (lit 1.0 * (x (n - 1)%nat - x (n - 2)%nat)) in
      (m, put r (n - 1) (lit 3.0 * (lit 0.0 - (y (n - 1)%nat - y (n - 2)%nat) / (x (n - 1)%nat - x (n - 2)%nat)))).

  (** spline.h:79-99: trig_solve, reading the cells; [k] iterations from index j *)
  Fixpoint mem_forward (n : nat) (m : matrix F) (b : arr F) (k j : nat) (bet xprev : F)
    : outcome (option (list (F * F))) :=
    match k with
    | O => Ok (Some [])
    | S k' =>
        c <- get n (mx_c m) (j - 1) ;;
        let g := c / bet in
        d <- get n (mx_d m) j ;;
        a <- get n (mx_a m) j ;;
        let bet' := d - a * g in
        if bet' =? lit 0.0 then Ok None
        else
          bj <- get n b j ;;
          let x := (bj - a * xprev) / bet' in
          r <- mem_forward n m b k' (S j) bet' x ;;
          Ok (match r with Some l => Some ((g, x) :: l) | None => None end)
    end.

  Definition mem_solve (n : nat) (m : matrix F) (b : arr F) : outcome (list F) :=
    d0 <- get n (mx_d m) 0 ;;
    if d0 =? lit 0.0 then UB Uninitialised
    else
      b0 <- get n b 0 ;;
      let x0 := b0 / d0 in
      r <- mem_forward n m b (n - 1) 1 d0 x0 ;;
      match r with
      | None => Ok (repeat (lit 0.0) n)
      | Some l => Ok (trig_back x0 l)
      end.

  (** what lies in the two cells nothing has written *)
  Definition leftovers (n : nat) (m : matrix F) (junk : F * F) : matrix F :=
    mkMx (put (mx_a m) (n - 1) (snd junk)) (mx_d m) (put (mx_c m) 0 (fst junk)).

  (** ** Which cells are written *)
  Lemma put_same (m : arr F) i v : put m i v i = Some v.
  Proof. unfold put. now rewrite Nat.eqb_refl. Qed.
  Lemma put_other (m : arr F) i k v : k <> i -> put m i v k = m k.
  Proof. intros H. unfold put. destruct (Nat.eqb_spec k i); [contradiction|reflexivity]. Qed.

  Lemma set_lower m i v : (1 <= i)%nat -> set_A m i (i - 1) v = mkMx (mx_a m) (mx_d m) (put (mx_c m) i v).
  Proof. intros H. unfold set_A. destruct (Z.eqb_spec (Z.of_nat (i - 1) - Z.of_nat i) (-1)); [reflexivity|lia]. Qed.
  Lemma set_diag m i v : set_A m i i v = mkMx (mx_a m) (put (mx_d m) i v) (mx_c m).
  Proof. unfold set_A. rewrite Z.sub_diag. reflexivity. Qed.
  Lemma set_upper m i v : set_A m i (i + 1) v = mkMx (put (mx_a m) i v) (mx_d m) (mx_c m).
  Proof.
    unfold set_A. destruct (Z.eqb_spec (Z.of_nat (i + 1) - Z.of_nat i) (-1)); [lia|].
    destruct (Z.eqb_spec (Z.of_nat (i + 1) - Z.of_nat i) 0); [lia|reflexivity].
  Qed.

  (** the cells after the loop over the rows 1..m *)
  Definition inner_cell (m k : nat) (v : F) : option F :=
    if (1 <=? k)%nat && (k <=? m)%nat then Some v else None.

  Lemma loop_cells xs ys m :
    let x k := nth k xs (lit 0.0) in
    let y k := nth k ys (lit 0.0) in
    let mr := fold_left (fill_row xs ys) (seq 1 m) (matrix_new, unwritten) in
    forall k,
      mx_c (fst mr) k = inner_cell m k (lit 1.0 / lit 3.0 * (x k - x (k - 1)%nat)) /\
      mx_d (fst mr) k = inner_cell m k (lit 2.0 / lit 3.0 * (x (k + 1)%nat - x (k - 1)%nat)) /\
      mx_a (fst mr) k = inner_cell m k (lit 1.0 / lit 3.0 * (x (k + 1)%nat - x k)) /\
      snd mr k = inner_cell m k ((y (k + 1)%nat - y k) / (x (k + 1)%nat - x k)
                                 - (y k - y (k - 1)%nat) / (x k - x (k - 1)%nat)).
  Proof.
    cbv zeta. induction m as [|m IH]; intros k.
    - cbn [seq fold_left fst snd matrix_new mx_a mx_d mx_c]. unfold inner_cell, unwritten.
      replace ((1 <=? k)%nat && (k <=? 0)%nat) with false; [auto|].
      symmetry. apply andb_false_iff. destruct (Nat.leb_spec 1 k), (Nat.leb_spec k 0); auto; lia.
    - rewrite seq_S, fold_left_app. cbn [fold_left].
      set (mr := fold_left (fill_row xs ys) (seq 1 m) (matrix_new, unwritten)) in *.
      replace (1 + m)%nat with (S m) by lia. unfold fill_row.
      rewrite (set_lower _ (S m)) by lia. rewrite set_diag, set_upper. cbn [fst snd mx_a mx_d mx_c].
      destruct (IH k) as (H1 & H2 & H3 & H4). clear IH.
      assert (E : forall v, inner_cell (S m) k v = if Nat.eqb k (S m) then Some v else inner_cell m k v).
      { intros v. unfold inner_cell. destruct (Nat.eqb_spec k (S m)) as [->|NE].
        - rewrite Nat.leb_refl. reflexivity.
        - destruct (Nat.leb_spec k (S m)), (Nat.leb_spec k m); try lia; reflexivity. }
      rewrite !E. unfold put. destruct (Nat.eqb_spec k (S m)) as [->|NE]; [auto|]. rewrite H1, H2, H3, H4. auto.
  Qed.

  (** reading the list of rows *)
  Definition row_of (m : matrix F) (b : arr F) (i : nat) (r : row F) : Prop :=
    mx_a m i = Some (ra r) /\ mx_d m i = Some (rd r) /\ mx_c m i = Some (rc r) /\ b i = Some (rb r).

  Lemma mem_forward_rows n m b : forall rows j bet xprev cprev,
    (j + length rows = n)%nat -> (1 <= j)%nat ->
    mx_c m (j - 1)%nat = Some cprev ->
    (forall i r, nth_error rows i = Some r -> row_of m b (j + i)%nat r) ->
    mem_forward n m b (length rows) j bet xprev = Ok (trig_forward cprev bet xprev rows).
  Proof.
    induction rows as [|r rows IH]; intros j bet xprev cprev L J C R; [reflexivity|].
    cbn [length] in *. cbn [mem_forward trig_forward].
    destruct (R 0%nat r eq_refl) as (Ra & Rd & Rc & Rb). rewrite Nat.add_0_r in *.
    unfold get at 1. destruct (Nat.ltb_spec (j - 1) n); [|lia]. rewrite C. cbn [bind].
    unfold get at 1. destruct (Nat.ltb_spec j n); [|lia]. rewrite Rd. cbn [bind].
    unfold get at 1. destruct (Nat.ltb_spec j n); [|lia]. rewrite Ra. cbn [bind].
    destruct (rd r - ra r * (cprev / bet) =? lit 0.0); [reflexivity|].
    unfold get at 1. destruct (Nat.ltb_spec j n); [|lia]. rewrite Rb. cbn [bind].
    rewrite (IH (S j) _ _ (rc r)).
    - reflexivity.
    - lia.
    - lia.
    - now rewrite Nat.sub_succ, Nat.sub_0_r.
    - intros i r' Hi. replace (S j + i)%nat with (j + S i)%nat by lia. now apply R.
  Qed.

  Lemma mem_solve_rows n m b rows : length rows = n ->
    (forall i r, nth_error rows i = Some r -> row_of m b i r) ->
    mem_solve n m b = trig_solve rows.
  Proof.
    intros L R. destruct rows as [|r0 rows].
    - cbn in L. subst n. reflexivity.
    - destruct (R 0%nat r0 eq_refl) as (Ra & Rd & Rc & Rb). cbn [length] in L.
      unfold mem_solve, trig_solve. unfold get at 1. destruct (Nat.ltb_spec 0 n); [|lia]. rewrite Rd. cbn [bind].
      destruct (rd r0 =? lit 0.0); [reflexivity|].
      unfold get at 1. destruct (Nat.ltb_spec 0 n); [|lia]. rewrite Rb. cbn [bind].
      replace (n - 1)%nat with (length rows) by lia.
      rewrite (mem_forward_rows n m b rows 1 _ _ (rc r0)).
      + cbn [bind]. cbn [length]. rewrite L. reflexivity.
      + lia.
      + lia.
      + exact Rc.
      + intros i r Hi. apply (R (S i)). exact Hi.
  Qed.

  Lemma inner_rows_cells : forall (xs ys : list F) i, length xs = length ys -> (i + 2 < length xs)%nat ->
    let x k := nth k xs (lit 0.0) in
    let y k := nth k ys (lit 0.0) in
    nth_error (inner_rows xs ys) i =
    Some (mkRow (lit 1.0 / lit 3.0 * (x (i + 2)%nat - x (i + 1)%nat))
                (lit 2.0 / lit 3.0 * (x (i + 2)%nat - x i))
                (lit 1.0 / lit 3.0 * (x (i + 1)%nat - x i))
                ((y (i + 2)%nat - y (i + 1)%nat) / (x (i + 2)%nat - x (i + 1)%nat)
                 - (y (i + 1)%nat - y i) / (x (i + 1)%nat - x i))).
  Proof.
    cbv zeta. induction xs as [|xm xs IH]; intros ys i L B; [cbn in B; lia|].
    destruct ys as [|ym ys]; [discriminate|]. cbn [length] in L, B. injection L as L.
    destruct xs as [|x0 [|xp xs]]; [cbn in B; lia|cbn in B; lia|].
    destruct ys as [|y0 [|yp ys]]; [discriminate|discriminate|].
    destruct i as [|i]; [reflexivity|]. exact (IH (y0 :: yp :: ys) i L ltac:(cbn in *; lia)).
  Qed.

  Lemma inner_rows_len : forall (xs ys : list F), length xs = length ys ->
    length (inner_rows xs ys) = (length xs - 2)%nat.
  Proof.
    induction xs as [|xm xs IH]; intros ys L; destruct ys as [|ym ys]; try discriminate; [reflexivity|].
    cbn [length] in L. injection L as L.
    destruct xs as [|x0 [|xp xs]], ys as [|y0 [|yp ys]]; try discriminate; try reflexivity.
    specialize (IH (y0 :: yp :: ys) L). cbn [length] in *.
    transitivity (S (length (inner_rows (x0 :: xp :: xs) (y0 :: yp :: ys)))); [reflexivity|]. rewrite IH. lia.
  Qed.

  (** the memory after construction holds the rows of [Spline.spline_rows] *)
  Lemma mem_rows n (xs ys : list F) junk i r : (2 <= n)%nat -> length xs = n -> length ys = n ->
    nth_error (spline_rows xs ys junk) i = Some r ->
    let mr := fill_matrix n xs ys true in
    row_of (leftovers n (fst mr) junk) (snd mr) i r.
  Proof.
    intros N2 Lx Ly H. cbv zeta. unfold fill_matrix.
    pose proof (loop_cells xs ys (n - 2)) as C. cbv zeta in C.
    set (mr := fold_left (fill_row xs ys) (seq 1 (n - 2)) (matrix_new, unwritten)) in *.
    replace 1%nat with (0 + 1)%nat at 1 by reflexivity. rewrite set_diag, set_upper, set_diag.
    assert (SL : forall m v, set_A m (n - 1) (n - 2) v = mkMx (mx_a m) (mx_d m) (put (mx_c m) (n - 1) v)).
    { intros m v. replace (n - 2)%nat with (n - 1 - 1)%nat by lia. apply set_lower. lia. }
    rewrite SL. clear SL.
    unfold leftovers. cbn [fst snd mx_a mx_d mx_c]. unfold row_of. cbn [mx_a mx_d mx_c].
    unfold spline_rows in H.
    assert (LI : length (inner_rows xs ys) = (n - 2)%nat) by (rewrite inner_rows_len; lia).
    destruct (C i) as (C1 & C2 & C3 & C4). clear C. unfold put.
    destruct i as [|i].
    - injection H as <-. cbn [ra rd rc rb]. cbn [Nat.eqb]. destruct (n - 1)%nat eqn:E; [lia|]. cbn [Nat.eqb]. auto.
    - cbn [nth_error] in H. destruct (Nat.lt_total i (n - 2)) as [B|[B|B]].
      + rewrite nth_error_app1 in H by lia. rewrite inner_rows_cells in H by lia. injection H as <-.
        cbn [ra rd rc rb]. rewrite C1, C2, C3, C4. unfold inner_cell.
        destruct (Nat.eqb_spec (S i) (n - 1)); [lia|]. cbn [Nat.eqb].
        destruct (Nat.leb_spec 1 (S i)); [|lia]. destruct (Nat.leb_spec (S i) (n - 2)); [|lia]. cbn [andb].
        replace (S i - 1)%nat with i by lia. replace (S i + 1)%nat with (i + 2)%nat by lia.
        replace (S i) with (i + 1)%nat by lia. auto.
      + subst i. rewrite nth_error_app2 in H by lia. rewrite LI, Nat.sub_diag in H. injection H as <-.
        cbn [ra rd rc rb]. replace (S (n - 2)) with (n - 1)%nat by lia. rewrite !Nat.eqb_refl.
        destruct (Nat.eqb_spec (n - 1) 0); [lia|]. auto.
      + rewrite nth_error_app2 in H by lia. rewrite LI in H.
        destruct (i - (n - 2))%nat as [|[|q]] eqn:E; [lia|discriminate|discriminate].
  Qed.

  Lemma spline_rows_len (xs ys : list F) junk : length xs = length ys -> (2 <= length xs)%nat ->
    length (spline_rows xs ys junk) = length xs.
  Proof. intros L B. unfold spline_rows. cbn [length]. rewrite app_length, inner_rows_len by assumption. cbn. lia. Qed.
End Mem.
