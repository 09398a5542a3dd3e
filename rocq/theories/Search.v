(** * The library built without ET_CALCULATED_INDEX: the place in the energy grid is searched

    storage.h:53-68, the other preprocessor branch, with std::upper_bound as the halving search of the
    standard library in place of the count of EnergyTable.upper_bound; and the functions that look up the grid
    (spline.h:117-161, storage.h:70-81) with that search. *)
From Coq Require Import ZArith List Bool.
From Verif Require Import Num Structures EnergyTable Spline.
Import ListNotations.

Section Search.
  Context {F : Type} {N : Num F}.
  Local Open Scope num_scope.

  (** std::upper_bound on [first, first+len): half = len/2; middle = first+half;
      if v < *middle the upper part is dropped, else the lower part and the middle.  The length at least halves, so
      [len] rounds are enough. *)
  Fixpoint ub_loop (rounds : nat) (l : list F) (v : F) (first len : nat) : outcome nat :=
    match rounds, len with
    | _, O | O, _ => Ok first
    | S r, _ =>
        let half := Nat.div2 len in
        let middle := (first + half)%nat in
        x <- aget l (Z.of_nat middle) ;;
        if v <? x then ub_loop r l v first half
        else ub_loop r l v (S middle) (len - half - 1)
    end.
  Definition std_upper_bound (l : list F) (v : F) : outcome nat := ub_loop (length l) l v 0 (length l).

  (** storage.h:53-68 without ET_CALCULATED_INDEX *)
  Definition et_index_search (t : EnergyTable F) (v : F) : outcome Z :=
    let n := Z.of_nat (et_n t) in
    v0 <- aget (et_values t) 0 ;;
    if (v <? v0) || (et_step t =? lit 0.0) then Ok (-1)%Z
    else
      vl <- aget (et_values t) (n - 1) ;;
      if vl - numeric_epsilon <=? v then Ok (n - 1)%Z
      else
        it <- std_upper_bound (et_values t) v ;;
        Ok (Z.of_nat it - 1)%Z.

  (** spline.h:117-137 and 140-161, given what index() returned *)
  Definition spline_eval_at (index : outcome Z) (s : spline F) (x : F) : outcome F :=
    let t := sp_table s in
    let n := Z.of_nat (et_n t) in
    i <- index ;;
    let idx := Z.max i 0 in
    xi <- aget (et_values t) idx ;;
    let h := x - xi in
    x0 <- aget (et_values t) 0 ;;
    xl <- aget (et_values t) (n - 1) ;;
    if x <? x0 then
      y0 <- aget (sp_y s) 0 ;;
      Ok ((sp_b0 s * h + sp_c0 s) * h + y0)
    else if xl <? x then
      bl <- aget (sp_b s) (n - 1) ;;
      cl <- aget (sp_c s) (n - 1) ;;
      yl <- aget (sp_y s) (n - 1) ;;
      Ok ((bl * h + cl) * h + yl)
    else
      a <- aget (sp_a s) idx ;;
      b <- aget (sp_b s) idx ;;
      c <- aget (sp_c s) idx ;;
      y <- aget (sp_y s) idx ;;
      Ok (((a * h + b) * h + c) * h + y).
  Definition spline_deriv_at (index : outcome Z) (s : spline F) (x : F) : outcome F :=
    let t := sp_table s in
    let n := Z.of_nat (et_n t) in
    i <- index ;;
    let idx := Z.max i 0 in
    xi <- aget (et_values t) idx ;;
    let h := x - xi in
    x0 <- aget (et_values t) 0 ;;
    xl <- aget (et_values t) (n - 1) ;;
    if x <? x0 then
      Ok (lit 2.0 * sp_b0 s * h + sp_c0 s)
    else if xl <? x then
      bl <- aget (sp_b s) (n - 1) ;;
      cl <- aget (sp_c s) (n - 1) ;;
      Ok (lit 2.0 * bl * h + cl)
    else
      a <- aget (sp_a s) idx ;;
      b <- aget (sp_b s) idx ;;
      c <- aget (sp_c s) idx ;;
      Ok ((lit 3.0 * a * h + lit 2.0 * b) * h + c).
  Definition spline_eval_search (s : spline F) (x : F) : outcome F := spline_eval_at (et_index_search (sp_table s) x) s x.
  Definition spline_deriv_search (s : spline F) (x : F) : outcome F := spline_deriv_at (et_index_search (sp_table s) x) s x.

  (** storage.h:70-81 *)
  Definition et_interpolate_search (t : EnergyTable F) (xval : F) (y : Z -> outcome F) : outcome F :=
    let n := Z.of_nat (et_n t) in
    v0 <- aget (et_values t) 0 ;;
    vl <- aget (et_values t) (n - 1) ;;
    if (xval <? v0) || (vl <? xval) then Ok (lit 0.0)
    else if xval =? vl then y (n - 1)%Z
    else
      i <- et_index_search t xval ;;
      xi1 <- aget (et_values t) (i + 1) ;;
      xi <- aget (et_values t) i ;;
      let linstep := xi1 - xi in
      if linstep =? lit 0.0 then Ok xi
      else
        let x := lit 1.0 - (xval - xi) / linstep in
        yi <- y i ;;
        yi1 <- y (i + 1)%Z ;;
        Ok (x * yi + (lit 1 - x) * yi1).
End Search.
