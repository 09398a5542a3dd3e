(** * Several threads in Data::Get: src/storage.cpp:112-139

    The cache is one global object without a lock (storage.cpp:21).  Each thread runs Get for its key
    as a sequence of small steps on the shared cache; a schedule says which thread makes the next step.
    Every step is atomic and sees the effects of all earlier ones.  C++ promises less (an
    unsynchronised write is a data race and undefined), so what goes wrong here goes wrong there. *)
From Coq Require Import ZArith List Bool.
From Verif Require Import Num Structures EnergyTable Spline Integrator Calculations Storage.
Import ListNotations.

Section Threads.
  Context {F : Type} {N : Num F}.

  Inductive pc :=
  | GScan (i : nat)                 (* Get, 131: about to compare entry i *)
  | AScan (i : nat)                 (* Add, 114 *)
  | AWrap                           (* 117 *)
  | ACompute                        (* 118, right-hand side: nothing shared is touched *)
  | AWrite (d : DataPoint F)        (* 118, the assignment to *index *)
  | ASpline (k : nat)               (* 123-125, the k-th spline *)
  | AInc                            (* 127 *)
  | GPrev                           (* 138 *)
  | Done (i : nat).                 (* the reference returned: entry i *)
  Record thread := mkT { t_p : Projectile F; t_m : Material F; t_c : Config F; t_pc : pc }.
  Definition at_pc (t : thread) (q : pc) : thread := mkT (t_p t) (t_m t) (t_c t) q.
  Definition start (p : Projectile F) (m : Material F) (c : Config F) : thread := mkT p m c (GScan 0).

  Variable junk : nat -> F * F.
  Variable calc : Projectile F -> Material F -> Config F -> outcome (DataPoint F).

  Definition with_slots (l : list (DataPoint F)) (w : world F) : world F :=
    mkW l (w_index w) (w_default w) (w_junk w).
  Definition with_index (i : nat) (w : world F) : world F :=
    mkW (w_slots w) i (w_default w) (w_junk w).

  (** one of the three spline members of *index *)
  Definition build_spline (k : nat) (j : F * F) (d : DataPoint F) : outcome (DataPoint F) :=
    match k with
    | 0 => s <- make_spline energy_table (dp_range d) j ;;
           Ok (mkDP (dp_p d) (dp_m d) (dp_c d) (dp_range d) (dp_rs d) (dp_av d) (Some s) (dp_rs_spline d) (dp_av_spline d))
    | 1 => s <- make_spline energy_table (dp_rs d) j ;;
           Ok (mkDP (dp_p d) (dp_m d) (dp_c d) (dp_range d) (dp_rs d) (dp_av d) (dp_range_spline d) (Some s) (dp_av_spline d))
    | _ => s <- make_spline energy_table (dp_av d) j ;;
           Ok (mkDP (dp_p d) (dp_m d) (dp_c d) (dp_range d) (dp_rs d) (dp_av d) (dp_range_spline d) (dp_rs_spline d) (Some s))
    end.

  Definition tstep (t : thread) (w : world F) : outcome (thread * world F) :=
    let dp := mkDP (t_p t) (t_m t) (t_c t) [] [] [] None None None in
    match t_pc t with
    | GScan i =>
        match nth_error (w_slots w) i with
        | None => Ok (at_pc t (AScan 0), w)
        | Some e => Ok (at_pc t (if key_match (t_p t) (t_m t) (t_c t) e then Done i else GScan (S i)), w)
        end
    | AScan i =>
        match nth_error (w_slots w) i with
        | None => Ok (at_pc t AWrap, w)
        | Some e => Ok (at_pc t (if dp_eqb e dp then GPrev else AScan (S i)), w)
        end
    | AWrap => Ok (at_pc t ACompute, if Nat.eqb (w_index w) (length (w_slots w)) then with_index 0 w else w)
    | ACompute => d <- calc (t_p t) (t_m t) (t_c t) ;; Ok (at_pc t (AWrite d), w)
    | AWrite d =>
        if (w_index w <? length (w_slots w))%nat
        then Ok (at_pc t (ASpline 0), with_slots (set_slot (w_slots w) (w_index w) d) w)
        else UB OutOfBounds
    | ASpline k =>
        match nth_error (w_slots w) (w_index w) with
        | None => UB OutOfBounds
        | Some e =>
            e <- build_spline k (junk (w_junk w)) e ;;
            Ok (at_pc t (if Nat.eqb k 2 then AInc else ASpline (S k)),
                mkW (set_slot (w_slots w) (w_index w) e) (w_index w) (w_default w) (S (w_junk w)))
        end
    | AInc =>
        if (w_index w <? length (w_slots w))%nat
        then Ok (at_pc t GPrev, with_index (S (w_index w)) w)
        else UB OutOfBounds                   (* ++ of the end iterator *)
    | GPrev =>
        match w_index w with
        | O => UB OutOfBounds
        | S i => Ok (at_pc t (Done i), w)
        end
    | Done i => Ok (t, w)
    end.

  Fixpoint set_thread (l : list thread) (k : nat) (t : thread) : list thread :=
    match l, k with
    | [], _ => []
    | _ :: l', O => t :: l'
    | x :: l', S k' => x :: set_thread l' k' t
    end.
  (** a schedule is the list of the threads that make the next steps; a number without a thread is
      skipped *)
  Definition sstep (s : list thread * world F) (k : nat) : outcome (list thread * world F) :=
    match nth_error (fst s) k with
    | None => Ok s
    | Some t => ' (t, w) <- tstep t (snd s) ;; Ok (set_thread (fst s) k t, w)
    end.
  Definition srun (schedule : list nat) (s : list thread * world F) : outcome (list thread * world F) :=
    ofold sstep schedule s.
End Threads.
Arguments thread F : clear implicits.
Arguments pc F : clear implicits.
