(** * std::vector as far as Layers::add needs it

    structures.cpp:66-74.  [for (auto m : l.get_materials()) add(m);] fetches begin() and end() of
    the source vector once; every [add] is a push_back on the destination vector.  push_back
    invalidates the past-the-end iterator, and all iterators when it reallocates.  Iterators carry
    the generation numbers valid when they were taken; using a stale one is undefined behaviour. *)
From Coq Require Import List Arith Lia Bool.
From Verif Require Import Num Structures.
Import ListNotations.

Section Vector.
  Context {A : Type}.
  Record vec := mkVec {
    v_elems : list A;
    v_cap : nat;
    v_gen : nat;       (* bumped by every reallocation *)
    v_end : nat        (* bumped by every push_back *)
  }.
  Variable grow : nat -> nat.      (* the library's growth policy *)

  Definition push_back (v : vec) (x : A) : vec :=
    if (length (v_elems v) <? v_cap v)%nat
    then mkVec (v_elems v ++ [x]) (v_cap v) (v_gen v) (S (v_end v))
    else mkVec (v_elems v ++ [x]) (grow (v_cap v)) (S (v_gen v)) (S (v_end v)).

  (** the vectors in memory *)
  Definition heap := nat -> vec.
  Definition upd (h : heap) (i : nat) (v : vec) : heap := fun k => if Nat.eqb k i then v else h k.

  (** the loop: the iterator stands at position [pos] of a run of [left] elements before end();
      [g], [g'] are the generations at which begin() and end() were taken.  Comparing the two, and
      dereferencing or incrementing the first, need them valid. *)
  Fixpoint add_loop (h : heap) (dst src : nat) (g g' pos left : nat) : outcome heap :=
    if Nat.eqb (v_gen (h src)) g && Nat.eqb (v_end (h src)) g' then
      match left with
      | O => Ok h
      | S left' =>
          match nth_error (v_elems (h src)) pos with
          | None => UB OutOfBounds
          | Some m =>
              let h := upd h dst (push_back (h dst) m) in
              if Nat.eqb (v_gen (h src)) g                          (* ++it *)
              then add_loop h dst src g g' (S pos) left'
              else UB IterInvalidated
          end
      end
    else UB IterInvalidated.

  (** Layers::add(const Layers&) *)
  Definition add_all (h : heap) (dst src : nat) : outcome heap :=
    add_loop h dst src (v_gen (h src)) (v_end (h src)) 0 (length (v_elems (h src))).

  Lemma add_loop_other dst src g g' : dst <> src -> forall left h pos,
    v_gen (h src) = g -> v_end (h src) = g' -> (pos + left = length (v_elems (h src)))%nat ->
    exists h', add_loop h dst src g g' pos left = Ok h' /\
      v_elems (h' dst) = v_elems (h dst) ++ skipn pos (v_elems (h src)) /\
      (forall k, k <> dst -> h' k = h k).
  Proof.
    intros NE. induction left as [|left IH]; intros h pos G G' L; cbn [add_loop];
      rewrite G, G', !Nat.eqb_refl; cbn [andb].
    - exists h. split; [reflexivity|]. split; [|auto].
      rewrite skipn_all2 by lia. now rewrite app_nil_r.
    - destruct (nth_error (v_elems (h src)) pos) as [m|] eqn:E.
      2: { apply nth_error_None in E. lia. }
      set (h1 := upd h dst (push_back (h dst) m)).
      assert (S1 : h1 src = h src).
      { unfold h1, upd. destruct (Nat.eqb_spec src dst); congruence. }
      rewrite S1, G, Nat.eqb_refl.
      destruct (IH h1 (S pos)) as (h' & H & E1 & E2); try (rewrite S1; auto; lia).
      exists h'. split; [assumption|]. split.
      + rewrite E1, S1. unfold h1, upd. rewrite Nat.eqb_refl. unfold push_back.
        assert (SK : skipn pos (v_elems (h src)) = m :: skipn (S pos) (v_elems (h src))).
        { clear - E. revert pos E. generalize (v_elems (h src)). induction l as [|a l IHl]; intros [|pos] E;
            cbn in *; try discriminate; [congruence|]. now apply IHl. }
        rewrite SK. destruct (_ <? _)%nat; cbn [v_elems]; rewrite <- app_assoc; reflexivity.
      + intros k Hk. rewrite E2 by assumption. unfold h1, upd. destruct (Nat.eqb_spec k dst); congruence.
  Qed.

  Lemma add_all_other h dst src : dst <> src ->
    exists h', add_all h dst src = Ok h' /\
      v_elems (h' dst) = v_elems (h dst) ++ v_elems (h src) /\
      (forall k, k <> dst -> h' k = h k).
  Proof.
    intros NE. unfold add_all. exact (add_loop_other dst src _ _ NE _ h 0 eq_refl eq_refl eq_refl).
  Qed.

  Lemma add_all_self h v : add_all h v v =
    match v_elems (h v) with [] => Ok h | _ => UB IterInvalidated end.
  Proof.
    unfold add_all. destruct (v_elems (h v)) as [|m l] eqn:E; cbn [length add_loop];
      rewrite !Nat.eqb_refl; cbn [andb]; [reflexivity|].
    rewrite E. cbn [nth_error]. unfold upd at 1. rewrite Nat.eqb_refl.
    destruct (Nat.eqb _ (v_gen (h v))); [|reflexivity].
    assert (X : Nat.eqb (v_end (upd h v (push_back (h v) m) v)) (v_end (h v)) = false).
    { unfold upd. rewrite Nat.eqb_refl. apply Nat.eqb_neq. unfold push_back. destruct (_ <? _)%nat; cbn; lia. }
    destruct (length l); cbn [add_loop]; rewrite X, Bool.andb_false_r; reflexivity.
  Qed.
End Vector.
Arguments vec A : clear implicits.
Arguments heap A : clear implicits.
