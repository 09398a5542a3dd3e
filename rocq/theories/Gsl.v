(** * Interpolation with the GNU Scientific Library: the build with GSL_INTERPOLATION (build_config.in:6)

    include/catima/storage.h:141-160, src/storage.cpp:37-69 and the storage class with these interpolators (src/storage.cpp:70-140).
    The objects of GSL are cells of a heap; an address is never given out twice.  [gsl_eval] and [gsl_eval_deriv] are gsl_spline_eval
    and gsl_spline_eval_deriv of a cubic spline: any functions of the data the spline was initialised with.  gsl_spline_free and
    gsl_interp_accel_free do nothing with a null pointer.  gsl_spline_alloc does not return a spline of fewer than three points. *)
From Coq Require Import ZArith List Bool.
From Verif Require Import Num Structures EnergyTable Spline Storage.
Import ListNotations.

(** the value of a pointer: indeterminate, null or an address *)
Inductive gptr := GIndet | GNull | GAt (n : nat).

Section Gsl.
  Context {F : Type} {N : Num F}.
  Local Open Scope num_scope.
  Variables gsl_eval gsl_eval_deriv : list F -> list F -> F -> F.

  (** gsl_interp_accel and gsl_spline *)
  Inductive cell := CAccel | CSpline (xs ys : list F).
  Record heap := mkHeap { h_next : nat; h_live : list (nat * cell) }.
  Definition heap0 : heap := mkHeap 0 [].
  Definition h_find (h : heap) (n : nat) : option cell :=
    option_map snd (find (fun c => Nat.eqb (fst c) n) (h_live h)).
  Definition h_alloc (c : cell) (h : heap) : gptr * heap :=
    (GAt (h_next h), mkHeap (S (h_next h)) ((h_next h, c) :: h_live h)).
  Definition h_free (p : gptr) (h : heap) : outcome heap :=
    match p with
    | GIndet => UB Uninitialised
    | GNull => Ok h
    | GAt n => match h_find h n with
               | Some _ => Ok (mkHeap (h_next h) (filter (fun c => negb (Nat.eqb (fst c) n)) (h_live h)))
               | None => UB DanglingPointer
               end
    end.
  Definition h_read (p : gptr) (h : heap) : outcome cell :=
    match p with
    | GIndet => UB Uninitialised
    | GNull => UB NullDeref
    | GAt n => match h_find h n with Some c => Ok c | None => UB DanglingPointer end
    end.

  (** storage.h:143-159 *)
  Record InterpolatorGSL := mkIG { ig_min : F; ig_max : F; ig_acc : gptr; ig_spline : gptr }.
  (** storage.h:145: the default constructor sets min and max only; [left] is what it leaves in the two pointers *)
  Definition ig_default (left : gptr) : InterpolatorGSL := mkIG (lit 0) (lit 0) left left.
  (** storage.cpp:39-51, with type = cspline *)
  Definition ig_make (t : EnergyTable F) (y : list F) (h : heap) : outcome (InterpolatorGSL * heap) :=
    let (acc, h) := h_alloc CAccel h in
    if (length y <? 3)%nat then UB NullDeref
    else if (length (et_values t) <? length y)%nat then UB OutOfBounds
    else
      let (s, h) := h_alloc (CSpline (firstn (length y) (et_values t)) y) h in
      x0 <- aget (et_values t) 0 ;;
      xl <- aget (et_values t) (Z.of_nat (length y) - 1) ;;
      Ok (mkIG x0 xl acc s, h).
  (** storage.cpp:53-56: the destructor *)
  Definition ig_destroy (i : InterpolatorGSL) (h : heap) : outcome heap :=
    h <- h_free (ig_acc i) h ;; h_free (ig_spline i) h.
  (** storage.cpp:58-68 *)
  Definition ig_clamp (i : InterpolatorGSL) (x : F) : F :=
    let x := if x <? ig_min i then ig_min i else x in
    if ig_max i <? x then ig_max i else x.
  Definition ig_use (g : list F -> list F -> F -> F) (i : InterpolatorGSL) (x : F) (h : heap) : outcome F :=
    a <- h_read (ig_acc i) h ;;
    s <- h_read (ig_spline i) h ;;
    match s with CSpline xs ys => Ok (g xs ys (ig_clamp i x)) | CAccel => UB DanglingPointer end.
  Definition ig_eval := ig_use gsl_eval.
  Definition ig_derivative := ig_use gsl_eval_deriv.

  (** ** Without STORE_SPLINES, storage.cpp:84-101: a function constructs an interpolator in its own variable, uses it and destroys it *)
  Definition with_interpolator {A} (t : EnergyTable F) (y : list F) (body : InterpolatorGSL -> heap -> outcome A) (h : heap) : outcome (A * heap) :=
    ' (i, h) <- ig_make t y h ;;
    v <- body i h ;;
    h <- ig_destroy i h ;;
    Ok (v, h).

  (** catima.cpp:62-67 on the data found by Get *)
  Definition range_T (d : DataPoint F) (T : F) : heap -> outcome (F * heap) :=
    with_interpolator energy_table (dp_range d) (fun i => ig_eval i T).

  (** ** With STORE_SPLINES: storage.h:205-226 with three of these interpolators.  The class has a destructor and no copy or move of its
      own, so an assignment copies the two pointers. *)
  Record PointG := mkPG { pg_data : DataPoint F; pg_range : InterpolatorGSL; pg_rs : InterpolatorGSL; pg_av : InterpolatorGSL }.
  (** members are destroyed in reverse order *)
  Definition pg_destroy (d : PointG) (h : heap) : outcome heap :=
    h <- ig_destroy (pg_av d) h ;; h <- ig_destroy (pg_rs d) h ;; ig_destroy (pg_range d) h.
  Record worldG := mkWG { wg_slots : list PointG; wg_index : nat; wg_heap : heap }.
  (** storage.cpp:102-106: resize() clears the memory of the new elements before it constructs them *)
  Definition blankG : PointG := mkPG DataPoint0 (ig_default GNull) (ig_default GNull) (ig_default GNull).
  Definition worldG0 : worldG := mkWG (repeat blankG max_storage_data) 0 heap0.

  Fixpoint find_slotG (q : DataPoint F -> bool) (l : list PointG) : option nat :=
    match l with
    | [] => None
    | e :: l' => if q (pg_data e) then Some O else option_map S (find_slotG q l')
    end.
  Fixpoint set_slotG (l : list PointG) (i : nat) (d : PointG) : list PointG :=
    match l, i with
    | [], _ => []
    | _ :: l', O => d :: l'
    | x :: l', S i' => x :: set_slotG l' i' d
    end.

  (** storage.cpp:112-128.  [left] is what a default constructor leaves in the pointers of a DataPoint built from its key
      (storage.h:220), [calc] is calculate_DataPoint, whose result is such a DataPoint, returned without a copy.  The statements in order: the local dp, the search,
      the assignment of the tables and of three pairs of pointers to the slot, the end of the temporary; for each interpolator the temporary,
      its assignment and its end; the end of dp. *)
  Definition add_G (left : gptr) (calc : Projectile F -> Material F -> Config F -> outcome (DataPoint F))
             (p : Projectile F) (t : Material F) (c : Config F) (w : worldG) : outcome worldG :=
    let fresh := fun d => mkPG d (ig_default left) (ig_default left) (ig_default left) in
    let dp := fresh (mkDP p t c [] [] [] None None None) in
    match find_slotG (fun e => dp_eqb e (pg_data dp)) (wg_slots w) with
    | Some _ => h <- pg_destroy dp (wg_heap w) ;; Ok (mkWG (wg_slots w) (wg_index w) h)
    | None =>
        let i := if Nat.eqb (wg_index w) (length (wg_slots w)) then O else wg_index w in
        d <- calc p t c ;;
        if (i <? length (wg_slots w))%nat then
          let tmp := fresh d in
          h <- pg_destroy tmp (wg_heap w) ;;
          ' (i1, h) <- ig_make energy_table (dp_range d) h ;;
          h <- ig_destroy i1 h ;;
          ' (i2, h) <- ig_make energy_table (dp_rs d) h ;;
          h <- ig_destroy i2 h ;;
          ' (i3, h) <- ig_make energy_table (dp_av d) h ;;
          h <- ig_destroy i3 h ;;
          h <- pg_destroy dp h ;;
          Ok (mkWG (set_slotG (wg_slots w) i (mkPG d i1 i2 i3)) (S i) h)
        else UB OutOfBounds
    end.
  (** storage.cpp:130-139 *)
  Definition get_G (left : gptr) (calc : Projectile F -> Material F -> Config F -> outcome (DataPoint F))
             (p : Projectile F) (t : Material F) (c : Config F) (w : worldG) : outcome (PointG * worldG) :=
    match find_slotG (key_match p t c) (wg_slots w) with
    | Some i => match nth_error (wg_slots w) i with Some d => Ok (d, w) | None => UB OutOfBounds end
    | None =>
        w' <- add_G left calc p t c w ;;
        match wg_index w' with
        | O => UB OutOfBounds
        | S i => match nth_error (wg_slots w') i with Some d => Ok (d, w') | None => UB OutOfBounds end
        end
    end.
  (** storage.cpp:108-109: the end of the program destroys the elements of the storage *)
  Fixpoint destroy_all (l : list PointG) (h : heap) : outcome heap :=
    match l with [] => Ok h | d :: l => h <- pg_destroy d h ;; destroy_all l h end.
  (** storage.h:255: Reset destroys the elements and makes new ones *)
  Definition reset_G (w : worldG) : outcome worldG :=
    h <- destroy_all (wg_slots w) (wg_heap w) ;; Ok (mkWG (repeat blankG max_storage_data) 0 h).
  (** catima.cpp:62-67 *)
  Definition range_G (left : gptr) (calc : Projectile F -> Material F -> Config F -> outcome (DataPoint F))
             (p : Projectile F) (t : Material F) (c : Config F) (w : worldG) : outcome (F * worldG) :=
    ' (d, w) <- get_G left calc p t c w ;;
    r <- ig_eval (pg_range d) (pT p) (wg_heap w) ;;
    Ok (r, w).
End Gsl.
Arguments cell F : clear implicits.
Arguments heap F : clear implicits.
Arguments InterpolatorGSL F : clear implicits.
Arguments PointG F : clear implicits.
Arguments worldG F : clear implicits.
