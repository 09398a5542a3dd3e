(** * Quadrature: include/catima/glq_integrator.h, gkq_integrator.h, integrator.h, src/integrator.cpp *)
From Coq Require Import ZArith List Bool.
From Verif Require Import Num Structures DataQuadrature.
Import ListNotations.

Section GL.
  Context {F : Type} {N : Num F}.
  Local Open Scope num_scope.

  (** glq_integrator.h:46-48: the loop over the symmetric pairs; a node is (x(i), w(i)) *)
  Fixpoint gl_pairs (nodes : list (F * F)) (f : F -> outcome F) (p q res : F) : outcome F :=
    match nodes with
    | [] => Ok res
    | (x, w) :: nodes' =>
        f1 <- f (p * x + q) ;;
        f2 <- f (- p * x + q) ;;
        gl_pairs nodes' f p q (res + w * (f1 + f2))
    end.

  (** glq_integrator.h:38-50: GaussLegendreIntegration<order>::integrate.  The arrays have
      order/2 + order%2 elements, so the loop runs over all of them (without the first one
      when the order is odd). *)
  Definition gl_integrate (order : nat) (nodes : list (F * F))
             (f : F -> outcome F) (a b : F) : outcome F :=
    let p := lit 0.5 * (b - a) in
    let q := lit 0.5 * (b + a) in
    if Nat.odd order then
      match nodes with
      | [] => UB OutOfBounds
      | (x, w) :: nodes' =>
          f0 <- f (p * x + q) ;;
          res <- gl_pairs nodes' f p q (lit 0.0 + w * f0) ;;
          Ok (p * res)
      end
    else
      res <- gl_pairs nodes f p q (lit 0.0) ;;
      Ok (p * res).

  (** glq_integrator.h:52-64 / gkq_integrator.h:154-166: get_points.  The array is
      default-initialised; None is an element that was never written. *)
  Fixpoint set_nth {A} (l : list A) (i : nat) (v : A) : list A :=
    match l, i with
    | [], _ => []
    | _ :: l', O => v :: l'
    | x :: l', S i' => x :: set_nth l' i' v
    end.
  Fixpoint points_loop (xs : list F) (num i k : nat) (p q : F) (pts : list (option F))
    : list (option F) :=
    match k with
    | O => pts
    | S k' =>
        let x := nth i xs (lit 0.0) in
        let pts := set_nth pts (num - i - 1) (Some (- p * x + q)) in
        let pts := set_nth pts (num + i) (Some (p * x + q)) in
        points_loop xs num (S i) k' p q pts
    end.
  Definition get_points (order : nat) (xs : list F) (a b : F) : list (option F) :=
    let p := lit 0.5 * (b - a) in
    let q := lit 0.5 * (b + a) in
    points_loop xs (Nat.div2 order) 0 (Nat.div2 order) p q (repeat None order).

  Definition gl_nodes (xs ws : list dec) : list (F * F) := combine (map lit xs) (map lit ws).

  (** integrator.h:62, integrator.cpp:9: the library-wide integrator is
      GaussLegendreIntegration<8> *)
  Definition GL8_nodes : list (F * F) := gl_nodes GL8_x GL8_w.
  Definition integrate (f : F -> outcome F) (a b : F) : outcome F :=
    gl_integrate 8 GL8_nodes f a b.
End GL.

Section GK.
  Context {F : Type} {N : Num F}.
  Local Open Scope num_scope.

  (** the data of one order: x, w, wg *)
  Record gk_data := mkGK { gk_order : nat; gk_x : list F; gk_w : list F; gk_wg : list F }.

  Definition gk7 := mkGK 7 (map lit GK7_x) (map lit GK7_w) (map lit GK7_wg).
  Definition gk15 := mkGK 15 (map lit GK15_x) (map lit GK15_w) (map lit GK15_wg).
  Definition gk21 := mkGK 21 (map lit GK21_x) (map lit GK21_w) (map lit GK21_wg).
  Definition gk31 := mkGK 31 (map lit GK31_x) (map lit GK31_w) (map lit GK31_wg).
  Definition gk61 := mkGK 61 (map lit GK61_x) (map lit GK61_w) (map lit GK61_wg).

  Definition oddgauss (d : gk_data) : bool := Nat.odd (Nat.div2 (gk_order d - 1)).
  Definition xsize (d : gk_data) : nat := Nat.div2 (gk_order d) + 1.
  Definition DBL_EPSILON : F := lit 1 / lit 4503599627370496.

  (** indices i, i+2, ... < xsize *)
  Definition strided (i n : nat) : list nat :=
    filter (fun k => Nat.eqb (Nat.modulo (k - i) 2) 0) (seq i (n - i)).

  (** gkq_integrator.h:62-101: integrate_nonadaptive *)
  Definition gk_nonadaptive (d : gk_data) (f : F -> outcome F) (a b : F) : outcome (F * F) :=
    let p := lit 0.5 * (b - a) in
    let q := lit 0.5 * (b + a) in
    x0 <- aget (gk_x d) 0 ;;
    w0 <- aget (gk_w d) 0 ;;
    val <- f (p * x0 + q) ;;
    let res0 := w0 * val in
    wg0 <- aget (gk_wg d) 0 ;;
    let gres0 := if oddgauss d then wg0 * val else lit 0.0 in
    let gi := if oddgauss d then 2%nat else 1%nat in
    let ki := if oddgauss d then 1%nat else 2%nat in
    rg <- ofold (fun acc i =>
             x <- aget (gk_x d) (Z.of_nat i) ;;
             w <- aget (gk_w d) (Z.of_nat i) ;;
             wg <- aget (gk_wg d) (Z.of_nat (Nat.div2 i)) ;;
             v1 <- f (p * x + q) ;;
             v2 <- f (- p * x + q) ;;
             let res := fst acc + w * v1 in
             let gres := snd acc + wg * v1 in
             Ok (res + w * v2, gres + wg * v2))
           (strided gi (xsize d)) (res0, gres0) ;;
    res <- ofold (fun acc i =>
             x <- aget (gk_x d) (Z.of_nat i) ;;
             w <- aget (gk_w d) (Z.of_nat i) ;;
             v1 <- f (p * x + q) ;;
             v2 <- f (- p * x + q) ;;
             Ok (acc + w * (v1 + v2)))
           (strided ki (xsize d)) (fst rg) ;;
    let err := fmax (fabs (snd rg - res)) DBL_EPSILON in
    Ok (p * res, p * err).

  (** gkq_integrator.h:103-129: integrate_adaptive; [level] starts at 49.  [rule] is the
      non-adaptive rule. *)
  Fixpoint gk_adaptive (rule : F -> F -> outcome (F * F)) (level : nat) (a b eps rprec : F)
    : outcome F :=
    let numlimit := lit 10 * DBL_EPSILON in
    r <- rule a b ;;
    let result := fst r in
    let err := snd r in
    if (fabs result <? numlimit) || (b - a <? numlimit) then Ok result
    else
      let aeps := fmax (rprec * fabs result) eps in
      if (aeps <? numlimit) || (fabs result <? aeps) then Ok result
      else
        match level with
        | O => Ok result
        | S level' =>
            if aeps <? err then
              let mid := lit 0.5 * (a + b) in
              r1 <- gk_adaptive rule level' a mid (lit 0.707 * aeps) (lit 0) ;;
              r2 <- gk_adaptive rule level' mid b (lit 0.707 * aeps) (lit 0) ;;
              Ok (r1 + r2)
            else Ok result
        end.

  (** gkq_integrator.h:131-142: integrate over N equal pieces *)
  Definition gk_integrate (d : gk_data) (f : F -> outcome F) (a b eps reps : F) (n : nat)
    : outcome F :=
    let step := (b - a) / ofZ (Z.of_nat n) in
    ofold (fun result i =>
             let m := a + ofZ (Z.of_nat i) * step in
             r <- gk_adaptive (gk_nonadaptive d f) 49 m (m + step)
                    (eps / ofZ (Z.of_nat n)) reps ;;
             Ok (result + r))
          (seq 0 n) (lit 0).

  (** gkq_integrator.h:144-152: integrate_intervals *)
  Definition gk_intervals (d : gk_data) (f : F -> outcome F) (l : list (F * F)) (eps reps : F)
    : outcome F :=
    ofold (fun result i =>
             r <- gk_adaptive (gk_nonadaptive d f) 49 (fst i) (snd i)
                    (eps / ofZ (Z.of_nat (length l))) reps ;;
             Ok (result + r))
          l (lit 0).
End GK.
Arguments gk_data F : clear implicits.
