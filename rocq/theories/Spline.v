(** * Cubic spline: include/catima/spline.h

    The tridiagonal matrix is three arrays a, d, c.  The non-const access operator maps A(i,i-1)
    to c[i], A(i,i) to d[i] and A(i,i+1) to a[i] (spline.h:60-67); the constructor writes
    c[1..N-1], d[0..N-1], a[0..N-2].  c[0] and a[N-1] are never written, the user-provided empty
    constructor (spline.h:51) leaves them indeterminate, and the solver reads both.  They are the
    parameter [junk] = (c[0], a[N-1]) here. *)
From Coq Require Import ZArith List Bool.
From Verif Require Import Num Structures EnergyTable.
Import ListNotations.

Section Spline.
  Context {F : Type} {N : Num F}.
  Local Open Scope num_scope.

  (** one row of the arrays seen by the solver: a[j], d[j], c[j], b[j] *)
  Record row := mkRow { ra : F; rd : F; rc : F; rb : F }.

  (** spline.h:86-94: elimination loop j = 1..N-1.  [cprev] = c[j-1], [bet], [xprev] = x[j-1].
      Result: the pairs (g[j], x[j]); None when a pivot is 0 (x.fill(0.0)). *)
  Fixpoint trig_forward (cprev bet xprev : F) (rows : list row) : option (list (F * F)) :=
    match rows with
    | [] => Some []
    | r :: rows' =>
        let g := cprev / bet in
        let bet' := rd r - ra r * g in
        if bet' =? lit 0.0 then None
        else
          let x := (rb r - ra r * xprev) / bet' in
          match trig_forward (rc r) bet' x rows' with
          | Some l => Some ((g, x) :: l)
          | None => None
          end
    end.

  (** spline.h:95-97: x[j] -= g[j+1]*x[j+1] for j = N-2..0 *)
  Fixpoint trig_back (x : F) (l : list (F * F)) : list F :=
    match l with
    | [] => [x]
    | (g, x') :: l' =>
        let r := trig_back x' l' in
        (x - g * hd (lit 0.0) r) :: r
    end.

  (** spline.h:79-99: trig_solve.  With d[0] == 0 the array returned is indeterminate. *)
  Definition trig_solve (rows : list row) : outcome (list F) :=
    match rows with
    | [] => UB OutOfBounds
    | r0 :: rows' =>
        if rd r0 =? lit 0.0 then UB Uninitialised
        else
          let x0 := rb r0 / rd r0 in
          match trig_forward (rc r0) (rd r0) x0 rows' with
          | None => Ok (repeat (lit 0.0) (length rows))
          | Some l => Ok (trig_back x0 l)
          end
    end.

  (** spline.h:178-184: inner rows; A(i,i-1) goes to c[i], A(i,i+1) to a[i] *)
  Fixpoint inner_rows (xs ys : list F) : list row :=
    match xs, ys with
    | xm :: ((x0 :: (xp :: _)) as xs'), ym :: ((y0 :: (yp :: _)) as ys') =>
        mkRow (lit 1.0 / lit 3.0 * (xp - x0))
              (lit 2.0 / lit 3.0 * (xp - xm))
              (lit 1.0 / lit 3.0 * (x0 - xm))
              ((yp - y0) / (xp - x0) - (y0 - ym) / (x0 - xm))
          :: inner_rows xs' ys'
    | _, _ => []
    end.

  (** spline.h:176-207 with boundary_second_deriv = true, its default and the only use *)
  Definition spline_rows (xs ys : list F) (junk : F * F) : list row :=
    mkRow (lit 0.0) (lit 2.0) (fst junk) (lit 0.0)
      :: inner_rows xs ys
      ++ [mkRow (snd junk) (lit 2.0) (lit 0.0) (lit 0.0)].

  (** spline.h:210-217: a[i], c[i] for i = 0..N-2 *)
  Fixpoint spline_ac (xs ys bs : list F) : list (F * F) :=
    match xs, ys, bs with
    | x0 :: ((x1 :: _) as xs'), y0 :: ((y1 :: _) as ys'), b0 :: ((b1 :: _) as bs') =>
        (lit 1.0 / lit 3.0 * (b1 - b0) / (x1 - x0),
         (y1 - y0) / (x1 - x0) - lit 1.0 / lit 3.0 * (lit 2.0 * b0 + b1) * (x1 - x0))
          :: spline_ac xs' ys' bs'
    | _, _, _ => []
    end.

  (** replace the last element, [m_b[N-1]=0.0] *)
  Fixpoint set_last (l : list F) (v : F) : list F :=
    match l with
    | [] => []
    | [_] => [v]
    | x :: l' => x :: set_last l' v
    end.

  (** cspline_special<T>: spline.h:104-167.  The table pointer is the table itself; [sp_y] is what
      m_y points to (aliasing of m_y is the subject of StorageHeap.v). *)
  Record spline := mkSpline {
    sp_table : EnergyTable F;
    sp_y : list F;
    sp_a : list F; sp_b : list F; sp_c : list F;
    sp_b0 : F; sp_c0 : F
  }.

  (** spline.h:169-231: constructor.  y[i] is unchecked access to the vector for i < N. *)
  Definition make_spline (t : EnergyTable F) (y : list F) (junk : F * F) : outcome spline :=
    let n := et_n t in
    if (length y <? n)%nat then UB OutOfBounds
    else
      let xs := et_values t in
      let ys := firstn n y in
      b <- trig_solve (spline_rows xs ys junk) ;;
      let ac := spline_ac xs ys b in
      let h := nth (n - 1) xs (lit 0.0) - nth (n - 2) xs (lit 0.0) in
      let la := fst (last ac (lit 0.0, lit 0.0)) in
      let lc := snd (last ac (lit 0.0, lit 0.0)) in
      let lb := nth (n - 2) b (lit 0.0) in
      Ok (mkSpline t y
            (map fst ac ++ [lit 0.0])
            (set_last b (lit 0.0))
            (map snd ac ++ [lit 3.0 * la * h * h + lit 2.0 * lb * h + lc])
            (lit 0.0)
            (snd (hd (lit 0.0, lit 0.0) ac))).

  (** spline.h:117-137: evaluate *)
  Definition spline_eval (s : spline) (x : F) : outcome F :=
    let t := sp_table s in
    let n := Z.of_nat (et_n t) in
    i <- et_index t x ;;
    let idx := Z.max i 0 in
    xi <- aget (et_values t) idx ;;
    let h := x - xi in
    x0 <- aget (et_values t) 0 ;;
    xl <- aget (et_values t) (n - 1) ;;
    if x <? x0 then
      y0 <- aget (sp_y s) 0 ;;
      Ok ((sp_b0 s * h + sp_c0 s) * h + y0)
    else if xl <? x then
      bl <- aget (sp_b s) (n - 1) ;;
      cl <- aget (sp_c s) (n - 1) ;;
      yl <- aget (sp_y s) (n - 1) ;;
      Ok ((bl * h + cl) * h + yl)
    else
      a <- aget (sp_a s) idx ;;
      b <- aget (sp_b s) idx ;;
      c <- aget (sp_c s) idx ;;
      y <- aget (sp_y s) idx ;;
      Ok (((a * h + b) * h + c) * h + y).

  (** spline.h:140-161: deriv *)
  Definition spline_deriv (s : spline) (x : F) : outcome F :=
    let t := sp_table s in
    let n := Z.of_nat (et_n t) in
    i <- et_index t x ;;
    let idx := Z.max i 0 in
    xi <- aget (et_values t) idx ;;
    let h := x - xi in
    x0 <- aget (et_values t) 0 ;;
    xl <- aget (et_values t) (n - 1) ;;
    if x <? x0 then
      Ok (lit 2.0 * sp_b0 s * h + sp_c0 s)
    else if xl <? x then
      bl <- aget (sp_b s) (n - 1) ;;
      cl <- aget (sp_c s) (n - 1) ;;
      Ok (lit 2.0 * bl * h + cl)
    else
      a <- aget (sp_a s) idx ;;
      b <- aget (sp_b s) idx ;;
      c <- aget (sp_c s) idx ;;
      Ok ((lit 3.0 * a * h + lit 2.0 * b) * h + c).
End Spline.
Arguments row F : clear implicits.
Arguments spline F : clear implicits.
