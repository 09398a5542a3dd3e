(** * The build with VETABLE (storage.h:32, :134-138, :184-190; storage.cpp:22-26): the energy grid is a LogVArray, which computes an
    energy whenever it is asked for one, in place of an EnergyTable, which keeps them in an array *)
From Coq Require Import ZArith List Bool.
From Verif Require Import Num Structures EnergyTable Spline Integrator Calculations Storage.
Import ListNotations.

Section Vetable.
  Context {F : Type} {N : Num F}.
  Local Open Scope num_scope.

  (** storage.cpp:23 *)
  Definition energy_table_V : LogVArray F := lv_make (Z.to_nat max_datapoints) logEmin logEmax.
  (** the elements read by loops over the grid *)
  Definition lv_values (t : LogVArray F) : list F := map (fun i => lv_value t (Z.of_nat i)) (seq 0 (lv_n t)).

  (** spline.h:104-115 with T = LogVArray *)
  Record splineV := mkSV {
    sv_table : LogVArray F;
    sv_y : list F;
    sv_a : list F; sv_b : list F; sv_c : list F;
    sv_b0 : F; sv_c0 : F
  }.
  (** spline.h:169-231 *)
  Definition make_splineV (t : LogVArray F) (y : list F) (junk : F * F) : outcome splineV :=
    let n := lv_n t in
    if (length y <? n)%nat then UB OutOfBounds
    else
      let xs := lv_values t in
      let ys := firstn n y in
      b <- trig_solve (spline_rows xs ys junk) ;;
      let ac := spline_ac xs ys b in
      let h := lv_value t (Z.of_nat n - 1) - lv_value t (Z.of_nat n - 2) in
      let la := fst (last ac (lit 0.0, lit 0.0)) in
      let lc := snd (last ac (lit 0.0, lit 0.0)) in
      let lb := nth (n - 2) b (lit 0.0) in
      Ok (mkSV t y
            (map fst ac ++ [lit 0.0])
            (set_last b (lit 0.0))
            (map snd ac ++ [lit 3.0 * la * h * h + lit 2.0 * lb * h + lc])
            (lit 0.0)
            (snd (hd (lit 0.0, lit 0.0) ac))).
  (** spline.h:117-137; no element of the grid is out of bounds, those of the coefficients can be *)
  Definition spline_evalV (s : splineV) (x : F) : outcome F :=
    let t := sv_table s in
    let n := Z.of_nat (lv_n t) in
    i <- lv_index t x ;;
    let idx := Z.max i 0 in
    let h := x - lv_value t idx in
    if x <? lv_value t 0 then
      y0 <- aget (sv_y s) 0 ;;
      Ok ((sv_b0 s * h + sv_c0 s) * h + y0)
    else if lv_value t (n - 1) <? x then
      bl <- aget (sv_b s) (n - 1) ;;
      cl <- aget (sv_c s) (n - 1) ;;
      yl <- aget (sv_y s) (n - 1) ;;
      Ok ((bl * h + cl) * h + yl)
    else
      a <- aget (sv_a s) idx ;;
      b <- aget (sv_b s) idx ;;
      c <- aget (sv_c s) idx ;;
      y <- aget (sv_y s) idx ;;
      Ok (((a * h + b) * h + c) * h + y).
  (** spline.h:140-161 *)
  Definition spline_derivV (s : splineV) (x : F) : outcome F :=
    let t := sv_table s in
    let n := Z.of_nat (lv_n t) in
    i <- lv_index t x ;;
    let idx := Z.max i 0 in
    let h := x - lv_value t idx in
    if x <? lv_value t 0 then
      Ok (lit 2.0 * sv_b0 s * h + sv_c0 s)
    else if lv_value t (n - 1) <? x then
      bl <- aget (sv_b s) (n - 1) ;;
      cl <- aget (sv_c s) (n - 1) ;;
      Ok (lit 2.0 * bl * h + cl)
    else
      a <- aget (sv_a s) idx ;;
      b <- aget (sv_b s) idx ;;
      c <- aget (sv_c s) idx ;;
      Ok ((lit 3.0 * a * h + lit 2.0 * b) * h + c).

  (** catima.cpp:404-445 with this grid *)
  Definition range_table_V (p : Projectile F) (t : Material F) (c : Config F) : outcome (list F) :=
    table (scaled_integral (pA p) (fdedx p t c)) (lv_values energy_table_V).
  Definition straggling_table_V (p : Projectile F) (t : Material F) (c : Config F) : outcome (list F) :=
    table (scaled_integral (pA p) (fomega p t c)) (lv_values energy_table_V).
  Definition angular_table_V (p : Projectile F) (t : Material F) (c : Config F) : outcome (list F) :=
    table (scaled_integral (pA p) (ftheta p t c)) (lv_values energy_table_V).
End Vetable.
Arguments splineV F : clear implicits.
