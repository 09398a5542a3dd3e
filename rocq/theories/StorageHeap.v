(** * The table cache with its memory: src/storage.cpp:102-139, include/catima/storage.h:162-270

    [Storage.v] gives every entry of the cache its tables and splines as values.  In the code an entry
    owns three std::vector<double> buffers, and each of its splines keeps a pointer to the numbers it
    was built from (cspline_special::m_y, spline.h:112, 173).  Here buffers live in a heap and may be
    freed.  Blocks are never handed out twice, so that a pointer to a freed block stays recognisable. *)
From Coq Require Import ZArith List Bool.
From Verif Require Import Num Structures EnergyTable Spline Integrator Calculations Storage CacheProofs.
Import ListNotations.

Section Heap.
  Context {F : Type} {N : Num F}.

  Definition heap := list (option (list F)).          (* None: freed *)
  Definition block (h : heap) (b : nat) : outcome (list F) :=
    match nth_error h b with Some (Some l) => Ok l | _ => UB DanglingPointer end.
  Fixpoint release1 (h : heap) (b : nat) : heap :=
    match h, b with
    | [], _ => []
    | _ :: h', O => None :: h'
    | x :: h', S b' => x :: release1 h' b'
    end.
  Definition release (h : heap) (v : option nat) : heap :=
    match v with Some b => release1 h b | None => h end.
  Fixpoint store (h : heap) (b : nat) (l : list F) : heap :=
    match h, b with
    | [], _ => []
    | _ :: h', O => Some l :: h'
    | x :: h', S b' => x :: store h' b' l
    end.

  (** cspline_special: the pointers null after value-initialisation, indeterminate after
      default-initialisation, or set by the constructor: m_y = [y]; the coefficients are in [s] *)
  Inductive hspline := HNull | HIndet | HBuilt (y : nat) (s : spline F).
  Definition with_y (s : spline F) (y : list F) : spline F :=
    mkSpline (sp_table s) y (sp_a s) (sp_b s) (sp_c s) (sp_b0 s) (sp_c0 s).

  (** storage.h:205-226.  A vector without a buffer is empty. *)
  Record hslot := mkHS {
    hs_p : Projectile F; hs_m : Material F; hs_c : Config F;
    hs_range : option nat; hs_rs : option nat; hs_av : option nat;
    hs_range_spline : hspline; hs_rs_spline : hspline; hs_av_spline : hspline
  }.
  Definition hslot0 : hslot := mkHS Projectile0 Material0 Config0 None None None HNull HNull HNull.
  Definition hkey (x : hslot) : DataPoint F := mkDP (hs_p x) (hs_m x) (hs_c x) [] [] [] None None None.

  Record hworld := mkHW {
    hw_heap : heap; hw_slots : list hslot; hw_index : nat; hw_default : Config F; hw_junk : nat }.
  Definition hworld0 : hworld := mkHW [] (repeat hslot0 max_storage_data) 0 Config0 0.

  (** Interpolator::eval and derivative through the pointer; deriv does not read m_y *)
  Definition heval (h : heap) (s : hspline) (x : F) : outcome F :=
    match s with
    | HNull => UB NullDeref
    | HIndet => UB Uninitialised
    | HBuilt y s => l <- block h y ;; spline_eval (with_y s l) x
    end.
  Definition hderiv (h : heap) (s : hspline) (x : F) : outcome F :=
    match s with
    | HNull => UB NullDeref
    | HIndet => UB Uninitialised
    | HBuilt y s => spline_deriv s x
    end.

  (** Interpolator(energy_table, v): storage.h:167-168, spline.h:169-173.  v is a member vector. *)
  Definition hbuild (h : heap) (v : option nat) (junk : F * F) : outcome hspline :=
    match v with
    | None => UB OutOfBounds
    | Some b => l <- block h b ;; s <- make_spline energy_table l junk ;; Ok (HBuilt b (with_y s []))
    end.

  (** calculate_DataPoint (catima.cpp:404-445): three new buffers (their filling is not interleaved
      with anything, they are written at once here); the splines of the local object are never
      written *)
  Definition hcalc (calc : Projectile F -> Material F -> Config F -> outcome (DataPoint F))
             (p : Projectile F) (t : Material F) (c : Config F) (h : heap) : outcome (hslot * heap) :=
    d <- calc p t c ;;
    let n := length h in
    Ok (mkHS p t c (Some n) (Some (S n)) (Some (S (S n))) HIndet HIndet HIndet,
        h ++ [Some (dp_range d); Some (dp_rs d); Some (dp_av d)]).

  (** DataPoint::operator=(DataPoint&&) = default (storage.h:224): the buffers change hands, those of
      the target are freed, the pointers in the splines are copied *)
  Definition hmove (dst src : hslot) (h : heap) : hslot * heap :=
    (src, release (release (release h (hs_range dst)) (hs_rs dst)) (hs_av dst)).

  (** std::vector copy assignment: the numbers are copied into the target's buffer if it has one
      (all buffers of one cache hold 600 numbers) and into a new one otherwise *)
  Definition hcopy_vec (dst src : option nat) (h : heap) : outcome (option nat * heap) :=
    match src, dst with
    | None, _ => Ok (None, release h dst)
    | Some b, Some a => l <- block h b ;; Ok (Some a, store h a l)
    | Some b, None => l <- block h b ;; Ok (Some (length h), h ++ [Some l])
    end.
  (** DataPoint::operator=(const DataPoint&) = default (storage.h:223) *)
  Definition hcopy (dst src : hslot) (h : heap) : outcome (hslot * heap) :=
    ' (r, h) <- hcopy_vec (hs_range dst) (hs_range src) h ;;
    ' (s, h) <- hcopy_vec (hs_rs dst) (hs_rs src) h ;;
    ' (a, h) <- hcopy_vec (hs_av dst) (hs_av src) h ;;
    Ok (mkHS (hs_p src) (hs_m src) (hs_c src) r s a
             (hs_range_spline src) (hs_rs_spline src) (hs_av_spline src), h).

  Fixpoint set_hslot (l : list hslot) (i : nat) (x : hslot) : list hslot :=
    match l, i with
    | [], _ => []
    | _ :: l', O => x :: l'
    | y :: l', S i' => y :: set_hslot l' i' x
    end.
  Fixpoint find_hslot (q : DataPoint F -> bool) (l : list hslot) : option nat :=
    match l with
    | [] => None
    | x :: l' => if q (hkey x) then Some O else option_map S (find_hslot q l')
    end.

  Variable junk : nat -> F * F.
  Variable calc : Projectile F -> Material F -> Config F -> outcome (DataPoint F).

  (** storage.cpp:112-128: Add *)
  Definition hadd (p : Projectile F) (t : Material F) (c : Config F) (w : hworld) : outcome hworld :=
    let dp := mkDP p t c [] [] [] None None None in
    match find_hslot (fun e => dp_eqb e dp) (hw_slots w) with
    | Some _ => Ok w
    | None =>
        let i := if Nat.eqb (hw_index w) (length (hw_slots w)) then O else hw_index w in
        ' (src, h) <- hcalc calc p t c (hw_heap w) ;;
        match nth_error (hw_slots w) i with
        | None => UB OutOfBounds
        | Some dst =>
            let '(x, h) := hmove dst src h in
            s1 <- hbuild h (hs_range x) (junk (hw_junk w)) ;;
            s2 <- hbuild h (hs_rs x) (junk (hw_junk w + 1)%nat) ;;
            s3 <- hbuild h (hs_av x) (junk (hw_junk w + 2)%nat) ;;
            let x := mkHS (hs_p x) (hs_m x) (hs_c x) (hs_range x) (hs_rs x) (hs_av x) s1 s2 s3 in
            Ok (mkHW h (set_hslot (hw_slots w) i x) (S i) (hw_default w) (hw_junk w + 3))
        end
    end.

  (** storage.cpp:130-139: Get *)
  Definition hget (p : Projectile F) (t : Material F) (c : Config F) (w : hworld) : outcome (nat * hworld) :=
    match find_hslot (key_match p t c) (hw_slots w) with
    | Some i => Ok (i, w)
    | None =>
        w' <- hadd p t c w ;;
        match hw_index w' with
        | O => UB OutOfBounds
        | S i => Ok (i, w')
        end
    end.

  (** storage.h:255: Reset; clear() destroys the entries, resize makes value-initialised ones *)
  Definition hreset (w : hworld) : hworld :=
    mkHW (fold_left (fun h x => release (release (release h (hs_range x)) (hs_rs x)) (hs_av x)) (hw_slots w) (hw_heap w))
         (repeat hslot0 max_storage_data) 0 (hw_default w) (hw_junk w).

  (** copy assignment between two entries obtained from Data::Get(unsigned) (storage.h:264) *)
  Definition hassign (j i : nat) (w : hworld) : outcome hworld :=
    match nth_error (hw_slots w) j, nth_error (hw_slots w) i with
    | Some dst, Some src =>
        if Nat.eqb j i then Ok w
        else
          ' (x, h) <- hcopy dst src (hw_heap w) ;;
          Ok (mkHW h (set_hslot (hw_slots w) j x) (hw_index w) (hw_default w) (hw_junk w))
    | _, _ => UB OutOfBounds
    end.

  (** the histories of [CacheProofs.v] *)
  Definition hstep (w : hworld) (o : op F) : outcome hworld :=
    match o with
    | OpGet p t c => omap snd (hget p t c w)
    | OpAdd p t c => hadd p t c w
    | OpReset => Ok (hreset w)
    | OpConfig c => Ok (mkHW (hw_heap w) (hw_slots w) (hw_index w) c (hw_junk w))
    end.
  Definition hrun (ops : list (op F)) (w : hworld) : outcome hworld := ofold hstep ops w.
End Heap.
Arguments hworld F : clear implicits.
Arguments hslot F : clear implicits.
Arguments hspline F : clear implicits.
Arguments heap F : clear implicits.
