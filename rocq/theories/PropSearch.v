(** * C66, the option ET_CALCULATED_INDEX *)
From Coq Require Import ZArith Reals List Bool Lia Lra Floats.
From Verif Require Import Num NumR NumF Structures EnergyTable Spline Calculations GridProofs InterpProofs BoundsProofs TotalProofs BoundsAny PropGrid PropSpline Search.
Import ListNotations.

Section Any.
Context {F : Type} {N : Num F}.

(** the default build *)
Theorem C66_index_default (s : spline F) x : spline_eval s x = spline_eval_at (et_index (sp_table s) x) s x /\ spline_deriv s x = spline_deriv_at (et_index (sp_table s) x) s x.
Proof. split; reflexivity. Qed.

Lemma ub_range (l : list F) v : forall r first len, (len <= r)%nat -> (first + len <= length l)%nat -> exists k, ub_loop r l v first len = Ok k /\ (first <= k <= first + len)%nat.
Proof.
  induction r as [|r IH]; intros first len LR FL.
  - exists first. split; [destruct len; reflexivity|lia].
  - destruct len as [|len]; [exists first; split; [reflexivity|lia]|]. cbn [ub_loop]. set (h := Nat.div2 (S len)). cbv zeta.
    assert (HL : (h < S len)%nat) by (apply Nat.lt_div2; lia).
    destruct (defined_aget l (Z.of_nat (first + h)) ltac:(lia)) as [x E]. rewrite E. cbn [bind]. destruct (fltb v x).
    + destruct (IH first h ltac:(lia) ltac:(lia)) as (k & E1 & B). exists k. split; [exact E1|lia].
    + destruct (IH (S (first + h)) (S len - h - 1)%nat ltac:(lia) ltac:(lia)) as (k & E1 & B). exists k. split; [exact E1|lia].
Qed.
(** the search finds the border of a list in which no element above v is followed by one not above it *)
Lemma ub_border (l : list F) v : (forall i j a b, (i <= j)%nat -> nth_error l i = Some a -> nth_error l j = Some b -> fltb v a = true -> fltb v b = true) ->
  forall r first len, (len <= r)%nat -> (first + len <= length l)%nat ->
  (forall i a, (i < first)%nat -> nth_error l i = Some a -> fltb v a = false) -> (forall i a, (first + len <= i)%nat -> nth_error l i = Some a -> fltb v a = true) ->
  exists k, ub_loop r l v first len = Ok k /\ (forall i a, nth_error l i = Some a -> fltb v a = negb (i <? k)%nat).
Proof.
  intros MONO. induction r as [|r IH]; intros first len LR FL LO HI.
  - exists first. split; [destruct len; reflexivity|]. intros i a A. destruct (Nat.ltb_spec i first); cbn [negb]; [eapply LO; eassumption|eapply HI; [|exact A]; lia].
  - destruct len as [|len].
    { exists first. split; [reflexivity|]. intros i a A. destruct (Nat.ltb_spec i first); cbn [negb]; [eapply LO; eassumption|eapply HI; [|exact A]; lia]. }
    cbn [ub_loop]. set (h := Nat.div2 (S len)). cbv zeta. assert (HL : (h < S len)%nat) by (apply Nat.lt_div2; lia).
    destruct (defined_aget l (Z.of_nat (first + h)) ltac:(lia)) as [x E]. rewrite E. cbn [bind]. apply aget_ok in E. destruct E as [_ E]. rewrite Nat2Z.id in E. destruct (fltb v x) eqn:V.
    + apply IH; [lia|lia|exact LO|]. intros i a I A. eapply MONO; [|exact E|exact A|exact V]. exact I.
    + apply IH; [lia|lia| |intros i a I A; eapply HI; [|exact A]; lia]. intros i a I A. destruct (fltb v a) eqn:VA; [|reflexivity]. rewrite (MONO i (first + h)%nat a x ltac:(lia) A E VA) in V. discriminate.
Qed.
Lemma upper_border (l : list F) v k : (k <= length l)%nat -> (forall i a, nth_error l i = Some a -> fltb v a = negb (i <? k)%nat) -> upper_bound l v = Z.of_nat k.
Proof.
  revert k. induction l as [|x l IH]; intros k K H; cbn [upper_bound length] in *; [lia|]. rewrite (H 0%nat x eq_refl). destruct k as [|k]; [reflexivity|]. cbn [Nat.ltb Nat.leb negb].
  rewrite (IH k); [lia|lia|]. intros i a A. exact (H (S i) a A).
Qed.
(** on such a list the search counts what is not above v, as EnergyTable.upper_bound does *)
Theorem C66_upper_bound (l : list F) v : (forall i j a b, (i <= j)%nat -> nth_error l i = Some a -> nth_error l j = Some b -> fltb v a = true -> fltb v b = true) ->
  exists k, std_upper_bound l v = Ok k /\ upper_bound l v = Z.of_nat k.
Proof.
  intros M. destruct (ub_border l v M (length l) 0 (length l) ltac:(lia) ltac:(lia) ltac:(intros; lia)) as (k & E & H).
  { intros i a I A. apply nth_error_None in I. congruence. }
  destruct (ub_range l v (length l) 0 (length l) ltac:(lia) ltac:(lia)) as (k' & E' & B). rewrite E in E'. injection E' as <-.
  exists k. split; [exact E|]. apply upper_border; [lia|exact H].
Qed.

(** with the search no value is looked up outside the grid, whatever the number type: NaN, infinities and the ends of the grid included *)
Theorem C66_search_safe n (lmin lmax v : F) : (1 <= n)%nat -> exists i, et_index_search (et_make n lmin lmax) v = Ok i /\ (-1 <= i <= Z.of_nat n - 1)%Z.
Proof.
  intros N1. unfold et_index_search. cbv zeta. set (t := et_make n lmin lmax). assert (L : length (et_values t) = n) by (unfold t, et_make; cbn [et_values]; rewrite map_length, seq_length; reflexivity). change (et_n t) with n.
  destruct (defined_aget (et_values t) 0 ltac:(lia)) as [v0 E0]. rewrite E0. cbn [bind]. destruct (_ || _); [exists (-1)%Z; split; [reflexivity|lia]|].
  destruct (defined_aget (et_values t) (Z.of_nat n - 1) ltac:(lia)) as [vl El]. rewrite El. cbn [bind]. destruct (fleb _ _); [exists (Z.of_nat n - 1)%Z; split; [reflexivity|lia]|].
  unfold std_upper_bound. destruct (ub_range (et_values t) v (length (et_values t)) 0 (length (et_values t)) ltac:(lia) ltac:(lia)) as (k & E & B). rewrite E. cbn [bind]. exists (Z.of_nat k - 1)%Z. split; [reflexivity|lia].
Qed.
Lemma eval_at_defined s x i : any_spline s -> (-1 <= i <= 599)%Z -> defined (spline_eval_at (Ok i) s x) /\ defined (spline_deriv_at (Ok i) s x).
Proof.
  intros (T & L1 & L2 & L3 & L4) B. unfold spline_eval_at, spline_deriv_at. rewrite T. cbn [bind]. cbv zeta. assert (EN : et_n (energy_table (F:=F)) = 600%nat) by reflexivity.
  rewrite EN. change (Z.of_nat 600) with 600%Z. pose proof (any_grid_length (F:=F)) as GL. assert (IB : (0 <= Z.max i 0 <= 599)%Z) by lia.
  split; (dbind; [apply defined_aget; rewrite GL; lia|]; dbind; [apply defined_aget; rewrite GL; lia|]; dbind; [apply defined_aget; rewrite GL; lia|]).
  - destruct (fltb _ _). { dbind; [apply defined_aget; lia|]. apply defined_Ok. } destruct (fltb _ _); repeat (dbind; [apply defined_aget; lia|]); apply defined_Ok.
  - destruct (fltb _ _). { apply defined_Ok. } destruct (fltb _ _); repeat (dbind; [apply defined_aget; lia|]); apply defined_Ok.
Qed.
(** so the splines of the library can be evaluated everywhere *)
Theorem C66_search_spline_safe y j x : feqb (lit (Num:=N) 2.0) (lit 0.0) = false -> length y = 600%nat ->
  exists s v d, make_spline energy_table y j = Ok s /\ spline_eval_search s x = Ok v /\ spline_deriv_search s x = Ok d.
Proof.
  intros N2 L. destruct (any_make_spline y j N2 L) as (s & M & A & _). unfold spline_eval_search, spline_deriv_search. destruct (C66_search_safe 600 logEmin logEmax x ltac:(lia)) as (i & E & B).
  assert (T : et_index_search (sp_table s) x = Ok i) by (replace (sp_table s) with (energy_table (F:=F)) by (symmetry; apply A); exact E).
  destruct (eval_at_defined s x i A ltac:(lia)) as [[v V] [d D]]. exists s, v, d. split; [exact M|]. rewrite T. split; [exact V|exact D].
Qed.
End Any.
Print Assumptions C66_index_default.
Print Assumptions C66_upper_bound.
Print Assumptions C66_search_safe.
Print Assumptions C66_search_spline_safe.

(** ** In exact arithmetic *)
Local Open Scope R_scope.
(** the one window that is left: the test against the last energy keeps its tolerance *)
Definition last_window (t : EnergyTable R) (x : R) : Prop := exists v, last_of t v /\ v - numeric_epsilon <= x < v.

Section Exact.
  Variables (n : nat) (lmin lmax : R).
  Hypothesis n2 : (2 <= n)%nat.
  Hypothesis lim : lmin < lmax.
  Notation tab := (et_make n lmin lmax).
  Notation X i := (gval n lmin lmax (INR i)).

  (** the search is the count *)
  Theorem C66_search_counts v : et_index_search tab v = et_index_ub tab v.
  Proof.
    unfold et_index_search, et_index_ub. cbv zeta. destruct (aget (et_values tab) 0) as [v0|w]; [|reflexivity]. cbn [bind]. destruct (_ || _); [reflexivity|].
    destruct (aget (et_values tab) _) as [vl|w]; [|reflexivity]. cbn [bind]. destruct (fleb _ _); [reflexivity|].
    destruct (C66_upper_bound (et_values tab) v) as (k & E & ->); [|rewrite E; reflexivity].
    intros i j a b IJ A B. apply at_in in A, B. destruct A as [_ ->], B as [_ ->]. numR. destruct (Rltb_spec v (X i)); [|discriminate]. destruct (Rltb_spec v (X j)) as [|Q]; [reflexivity|].
    pose proof (gval_le n lmin lmax n2 lim (INR i) (INR j) ltac:(now apply le_INR)). lra.
  Qed.
  (** below the grid -1, from the last energy less the tolerance on the last index, and between them the interval of the
      grid that holds v, with no tolerance *)
  Theorem C66_search_lookup v first last : first_of tab first -> last_of tab last ->
    (v < first -> et_index_search tab v = Ok (-1)%Z) /\
    (first <= v -> last - numeric_epsilon <= v -> et_index_search tab v = Ok (Z.of_nat n - 1)%Z) /\
    (first <= v < last - numeric_epsilon -> exists i a b, et_index_search tab v = Ok (Z.of_nat i) /\ at_ tab i = Some a /\ at_ tab (S i) = Some b /\ a <= v < b).
  Proof.
    intros Hf Hl. rewrite C66_search_counts. split; [|split].
    - intros V. unfold first_of in Hf. apply at_in in Hf. destruct Hf as [_ ->]. unfold et_index_ub. cbv zeta. rewrite !et_aget by lia. cbn [bind]. numR. destruct (Rltb_spec v (gval n lmin lmax 0)); [reflexivity|]. change (INR 0) with 0 in V. lra.
    - intros V W. unfold first_of, last_of in *. rewrite et_n_R in Hl. apply at_in in Hf, Hl. destruct Hf as [_ ->], Hl as [_ ->]. unfold et_index_ub. cbv zeta. rewrite et_n_R, !et_aget by lia. cbn [bind].
      replace (gval n lmin lmax (IZR (Z.of_nat n - 1))) with (X (n - 1)) by (f_equal; rewrite minus_INR, minus_IZR, <- INR_IZR_INZ by lia; reflexivity).
      numR. change (INR 0) with 0 in V. destruct (Rltb_spec v (gval n lmin lmax 0)); [lra|]. rewrite (step_nz n lmin lmax n2 lim). cbn [orb]. destruct (Rleb_spec (X (n - 1) - numeric_epsilon) v); [reflexivity|lra].
    - intros V. exact (C19_upper_bound n lmin lmax v first last n2 lim Hf Hl V).
  Qed.
End Exact.
Print Assumptions C66_search_counts.
Print Assumptions C66_search_lookup.

Section Splines.
  Variables (n : nat) (lmin lmax : R).
  Hypothesis n3 : (3 <= n)%nat.
  Hypothesis lim : lmin < lmax.
  Variables (y : list R) (junk : R * R) (s : spline R).
  Hypothesis made : make_spline (et_make n lmin lmax) y junk = Ok s.
  Notation tab := (et_make n lmin lmax).
  Notation X i := (gval n lmin lmax (INR i)).
  Let n2 : (2 <= n)%nat. Proof. clear - n3. lia. Qed.
  Let mono i j : (i <= j)%nat -> X i <= X j.
  Proof. intros H. apply gval_le; [lia|exact lim|]. now apply le_INR. Qed.

  Lemma search_choose x : (x < X 0 /\ et_index_search tab x = Ok (-1)%Z) \/
    exists i, et_index_search tab x = Ok (Z.of_nat i) /\ (i < n)%nat /\ X 0 <= x /\
      ((X i <= x /\ ((S i < n)%nat -> x < X (S i))) \/ (i = (n - 1)%nat /\ last_window tab x)).
  Proof.
    assert (Hf : first_of tab (X 0)) by (apply at_gval; lia). assert (Hl : last_of tab (X (n - 1))) by (unfold last_of; rewrite et_n_R; apply at_gval; lia).
    destruct (C66_search_lookup n lmin lmax n2 lim x _ _ Hf Hl) as (A & B & C).
    destruct (Rlt_le_dec x (X 0)) as [H|H]; [left; auto|right]. destruct (Rlt_le_dec x (X (n - 1) - numeric_epsilon)) as [U|U].
    - destruct (C (conj H U)) as (i & a & b & E & Ha & Hb & I1). apply at_in in Ha, Hb. destruct Ha as [_ ->], Hb as [K ->]. exists i. split; [exact E|]. split; [lia|]. split; [exact H|]. left. split; [lra|]. intros; lra.
    - exists (n - 1)%nat. replace (Z.of_nat (n - 1)) with (Z.of_nat n - 1)%Z by lia. split; [now apply B|]. split; [lia|]. split; [exact H|].
      destruct (Rlt_le_dec x (X (n - 1))) as [Q|Q]; [right; split; [reflexivity|]; exists (X (n - 1)); split; [exact Hl|lra]|left; split; [exact Q|intros; lia]].
  Qed.
  Lemma search_left x : x < X 0 -> spline_eval_search s x = Ok (left_line n lmin lmax s x) /\ spline_deriv_search s x = Ok (nth 0 (sp_c s) 0).
  Proof.
    intros H. destruct (eval_left n lmin lmax n3 y junk s made x H) as [E D]. destruct (lens n lmin lmax n3 y junk s made) as (_ & _ & _ & _ & _ & _ & T & _).
    destruct (C66_index_default s x) as [IE ID]. rewrite IE in E. rewrite ID in D. unfold spline_eval_search, spline_deriv_search. rewrite T in *. rewrite (index_below n lmin lmax n2 x H) in E, D.
    destruct (search_choose x) as [[_ ->]|(i & _ & _ & Q & _)]; [split; assumption|lra].
  Qed.
  Lemma at_piece x i : X 0 <= x -> (i < n)%nat -> (X (n - 1) < x -> i = (n - 1)%nat) ->
    spline_eval_at (Ok (Z.of_nat i)) s x = Ok (piece n lmin lmax s i x) /\ spline_deriv_at (Ok (Z.of_nat i)) s x = Ok (slope n lmin lmax s i x).
  Proof.
    intros H B U. destruct (lens n lmin lmax n3 y junk s made) as (La & Lb & Lc & Ly & B0 & C0 & T & Al & Bl). unfold spline_eval_at, spline_deriv_at. rewrite T, et_n_R.
    cbn [bind]. replace (Z.max (Z.of_nat i) 0) with (Z.of_nat i) by lia.
    rewrite !et_aget by lia. cbn [bind]. rewrite <- INR_IZR_INZ. change (gval n lmin lmax 0) with (X 0).
    replace (gval n lmin lmax (IZR (Z.of_nat n - 1))) with (X (n - 1)) by (f_equal; rewrite minus_INR, minus_IZR, <- INR_IZR_INZ by lia; reflexivity).
    numR. destruct (Rltb_spec x (X 0)); [lra|].
    destruct (Rltb_spec (X (n - 1)) x) as [Q|Q].
    - rewrite (U Q) in *. replace (Z.of_nat n - 1)%Z with (Z.of_nat (n - 1)) by lia.
      rewrite !(aget_nth n n3) by lia. cbn [bind]. unfold piece, slope. cbv zeta. rewrite Al, Bl. dec_norm. split; f_equal; field.
    - rewrite !(aget_nth n n3) by lia. cbn [bind]. unfold piece, slope. cbv zeta. dec_norm. split; f_equal; field.
  Qed.
  Lemma search_piece x i : X 0 <= x -> et_index_search tab x = Ok (Z.of_nat i) -> (i < n)%nat -> (X (n - 1) < x -> i = (n - 1)%nat) ->
    spline_eval_search s x = Ok (piece n lmin lmax s i x) /\ spline_deriv_search s x = Ok (slope n lmin lmax s i x).
  Proof.
    intros H E B U. unfold spline_eval_search, spline_deriv_search. destruct (lens n lmin lmax n3 y junk s made) as (_ & _ & _ & _ & _ & _ & T & _). rewrite T, E. now apply at_piece.
  Qed.
  Lemma search_above x i : (i < n)%nat -> ((S i < n)%nat -> x < X (S i)) -> X (n - 1) < x -> i = (n - 1)%nat.
  Proof. intros B C Q. destruct (Nat.eq_dec i (n - 1)) as [|NE]; [assumption|]. pose proof (mono (S i) (n - 1) ltac:(lia)). specialize (C ltac:(lia)). lra. Qed.

  (** with the search, evaluation follows one continuous function, cubic between grid energies and straight outside, everywhere
      but in the last window, where the line that continues the spline above the grid is used; and the derivative is its derivative *)
  Theorem C66_search_continuous :
    exists S : R -> R,
      continuity S /\
      (forall k v, at_ tab k = Some v -> S v = nth k y 0) /\
      (forall x, ~ last_window tab x -> spline_eval_search s x = Ok (S x)) /\
      (exists q, affine q /\ (forall x v, at_ tab 0 = Some v -> x <= v -> S x = q x)) /\
      (exists q, affine q /\ (forall x v, last_of tab v -> v <= x -> S x = q x) /\
         forall x v, at_ tab 0 = Some v -> v <= x -> last_window tab x -> spline_eval_search s x = Ok (q x)) /\
      (forall k a b, at_ tab k = Some a -> at_ tab (Datatypes.S k) = Some b -> exists q, cubic q /\ forall x, a <= x <= b -> S x = q x) /\
      (forall x, ~ last_window tab x -> (forall k, at_ tab k <> Some x) -> exists d, spline_deriv_search s x = Ok d /\ derivable_pt_lim S x d).
  Proof.
    assert (WK : forall k, (k < n)%nat -> whole n lmin lmax s (X k) = nth k y 0).
    { intros k K. destruct (made_arrays n lmin lmax n3 y junk s made) as (_ & _ & Ey & _). rewrite (whole_piece n lmin lmax n3 lim s k); [rewrite piece_start, Ey; reflexivity|exact K|lra|].
      intros _. apply X_lt; [exact n3|exact lim|lia]. }
    exists (whole n lmin lmax s).
    split; [exact (whole_cont n lmin lmax n3 lim y junk s made)|].
    split; [intros k v H; apply at_in in H; destruct H as [K ->]; now apply WK|].
    split; [|split; [|split; [|split]]].
    - intros x W. destruct (search_choose x) as [[H _]|(i & E & B & H0 & [[C1 C2]|[_ C]])]; [| |contradiction].
      + rewrite (whole_left n lmin lmax n3 s) by exact H. now apply search_left.
      + destruct (search_piece x i H0 E B (search_above x i B C2)) as [-> _]. f_equal. symmetry. now apply whole_piece.
    - exists (left_line n lmin lmax s). split.
      + exists (nth 0 (sp_c s) 0), (nth 0 (sp_y s) 0 - nth 0 (sp_c s) 0 * X 0). intros x. unfold left_line. ring.
      + intros x v Hv [L| ->]; apply at_in in Hv; destruct Hv as [_ ->]; [now apply whole_left|].
        rewrite WK by lia. unfold left_line. destruct (made_arrays n lmin lmax n3 y junk s made) as (_ & _ & Ey & _). rewrite Ey. ring.
    - exists (piece n lmin lmax s (n - 1)). destruct (lens n lmin lmax n3 y junk s made) as (_ & _ & _ & _ & _ & _ & _ & Al & Bl).
      split; [|split].
      + exists (nth (n - 1) (sp_c s) 0), (nth (n - 1) (sp_y s) 0 - nth (n - 1) (sp_c s) 0 * X (n - 1)). intros x. unfold piece. cbv zeta. rewrite Al, Bl. ring.
      + intros x v Hv L. unfold last_of in Hv. rewrite et_n_R in Hv. apply at_in in Hv. destruct Hv as [_ ->]. apply whole_piece; try assumption; lia.
      + intros x v Hv L (w & Hw & W). unfold last_of in Hw. rewrite et_n_R in Hw. apply at_in in Hv, Hw. destruct Hv as [_ ->], Hw as [_ ->].
        apply search_piece; [exact L| |lia|reflexivity]. replace (Z.of_nat (n - 1)) with (Z.of_nat n - 1)%Z by lia.
        apply (C66_search_lookup n lmin lmax n2 lim x (X 0) (X (n - 1))); [apply at_gval; lia|unfold last_of; rewrite et_n_R; apply at_gval; lia|exact L|apply W].
    - intros k a b Ha Hb. apply at_in in Ha, Hb. destruct Ha as [_ ->], Hb as [K ->].
      exists (piece n lmin lmax s k). split; [apply piece_cubic|]. intros x [L [U| ->]].
      + apply whole_piece; try assumption; [lia|]. intros _. exact U.
      + rewrite WK by lia. symmetry. replace (Datatypes.S k) with (k + 1)%nat by lia.
        rewrite (piece_end n lmin lmax n3 lim y junk s made) by lia. destruct (made_arrays n lmin lmax n3 y junk s made) as (_ & _ & Ey & _). now rewrite Ey.
    - intros x W K. destruct (search_choose x) as [[H _]|(i & E & B & H0 & [[C1 C2]|[_ C]])]; [| |contradiction].
      + destruct (search_left x H) as [_ D]. eexists. split; [exact D|].
        apply (deriv_local _ (left_line n lmin lmax s) x _ (X 0 - x)); [lra| |].
        * intros z Hz. apply whole_left; [exact n3|]. pose proof (Rle_abs (z - x)). lra.
        * unfold left_line. set (c := nth 0 (sp_c s) 0). set (y0 := nth 0 (sp_y s) 0). set (k := X 0).
          assert (D' : derivable_pt (fun x => c * (x - k) + y0) x) by reg.
          assert (E' : derive_pt (fun x => c * (x - k) + y0) x D' = c) by (reg; ring).
          apply (derive_pt_eq_1 (fun x => c * (x - k) + y0) x c D'). exact E'.
      + destruct (search_piece x i H0 E B (search_above x i B C2)) as [_ D]. eexists. split; [exact D|].
        assert (NE : X i <> x) by (intros Q; apply (K i); rewrite <- Q; now apply at_gval).
        set (e := if Nat.ltb (Datatypes.S i) n then Rmin (x - X i) (X (Datatypes.S i) - x) else x - X i).
        assert (EE : 0 < e /\ e <= x - X i /\ ((Datatypes.S i < n)%nat -> e <= X (Datatypes.S i) - x)).
        { unfold e. destruct (Nat.ltb_spec (Datatypes.S i) n) as [Q|Q].
          - pose proof (Rmin_l (x - X i) (X (Datatypes.S i) - x)). pose proof (Rmin_r (x - X i) (X (Datatypes.S i) - x)).
            specialize (C2 Q). split; [apply Rmin_pos; lra|]. split; [lra|]. intros _. lra.
          - split; [lra|]. split; [lra|]. intros; lia. }
        destruct EE as (E1 & E2 & E3).
        apply (deriv_local _ (piece n lmin lmax s i) x _ e); [exact E1| |apply piece_deriv].
        intros z Hz. apply Rabs_def2 in Hz. apply whole_piece; try assumption; [lra|]. intros Q. specialize (E3 Q). lra.
  Qed.

  (** the two builds answer the same outside the windows of C20, and at the energies of the grid *)
  Theorem C66_search_agree x : (Z.of_nat n < 2147483648)%Z -> ~ window tab x ->
    et_index_search tab x = et_index tab x /\ spline_eval_search s x = spline_eval s x /\ spline_deriv_search s x = spline_deriv s x.
  Proof.
    intros nmax W. assert (IE : et_index_search tab x = et_index tab x).
    { destruct (search_choose x) as [[H ->]|(i & E & B & H0 & [[C1 C2]|[_ C]])].
      - symmetry. now apply index_below.
      - rewrite E. destruct (choose n lmin lmax n3 nmax lim x) as [H|(j & Ej & Bj & C)]; [lra|]. rewrite Ej. f_equal. f_equal. destruct C as [[D1 D2]|[D _]].
        2: { exfalso. apply W. destruct j as [|j]; [lra|]. exists j, (X (S j)). split; [now apply at_gval|exact D]. }
        pose proof eps_pos. destruct (Nat.lt_total i j) as [Q|[Q|Q]]; [exfalso|exact Q|exfalso].
        + specialize (C2 ltac:(lia)). pose proof (mono (S i) j ltac:(lia)). lra.
        + specialize (D2 ltac:(lia)). pose proof (mono (S j) i ltac:(lia)). lra.
      - exfalso. apply W. destruct C as (v & Hv & C). unfold last_of in Hv. rewrite et_n_R in Hv. exists (n - 2)%nat, v. replace (S (n - 2)) with (n - 1)%nat by lia. split; assumption. }
    split; [exact IE|]. destruct (C66_index_default s x) as [-> ->]. unfold spline_eval_search, spline_deriv_search. destruct (lens n lmin lmax n3 y junk s made) as (_ & _ & _ & _ & _ & _ & T & _). rewrite T, IE. split; reflexivity.
  Qed.
End Splines.
Print Assumptions C66_search_continuous.
Print Assumptions C66_search_agree.

(** the library's grid: 600 energies from 1e-3 to 1e7 *)
Example C66_search_case y : length y = 600%nat -> exists s S, make_spline energy_table y (0, 0) = Ok s /\ continuity S /\
  (forall x, x <= 1000 -> spline_eval_search s x = Ok (S x)) /\ (forall k v, at_ energy_table k = Some v -> S v = nth k y 0).
Proof.
  intros L. rewrite energy_table_eq. destruct (C20_defined 600 (-3) 7 y (0, 0) ltac:(lia) ltac:(lia)) as [s M].
  destruct (C66_search_continuous 600 (-3) 7 ltac:(lia) ltac:(lra) y (0, 0) s M) as (f & CF & K & EV & _). exists s, f. split; [exact M|]. split; [exact CF|]. split; [|exact K].
  intros x X1. apply EV. intros (v & Hv & W). unfold last_of in Hv. rewrite et_n_R in Hv. destruct (C18_grid 600 (-3) 7 ltac:(lia) ltac:(lra)) as (_ & _ & G & _). cbv zeta in G. assert (EV1 : v = exp (LN10_ * 7)) by congruence. rewrite EV1 in W. clear EV1 Hv.
  pose proof eps_small as ES. assert (BIG : 2000 < exp (LN10_ * 7)); [clear W|lra]. assert (P : exp 14 <= exp (LN10_ * 7)).
  { pose proof LN10_bounds. left. apply exp_increasing. lra. }
  pose proof (exp_ineq1 2 ltac:(lra)) as Q. replace 14 with (2 + 2 + 2 + 2 + 2 + 2 + 2) in P by lra. rewrite !exp_plus in P. set (e := exp 2) in *. assert (9 < e * e) by nra. assert (81 < e * e * e * e) by nra. assert (729 < e * e * e * e * e * e) by nra. nra.
Qed.

(** in the windows the two builds differ: just below the second energy the default build is on the cubic of the next interval *)
Theorem C66_search_window_refuted : exists (y : list R) s x v w, length y = 600%nat /\ make_spline energy_table y (0, 0) = Ok s /\
  spline_eval_search s x = Ok v /\ spline_eval s x = Ok w /\ v < w.
Proof.
  rewrite energy_table_eq.
  destruct (bump_spline 600 (-3) 7 (0, 0)) as (y & s & L & Hs & H); [lia|lra|cbn; rewrite Rabs_R0; lra|cbn; rewrite Rabs_R0; lra|].
  cbv zeta in H. destruct H as (Y0 & Y1 & A0 & B0 & C0 & A1 & B1 & C1).
  assert (N3 : (3 <= 600)%nat) by lia. assert (NM : (Z.of_nat 600 < 2147483648)%Z) by lia.
  assert (Lim : (-3 < 7)%R) by lra.
  set (x i := gval 600 (-3) 7 (INR i)) in *. change (gval 600 (-3) 7 (INR 0)) with (x 0%nat) in *.
  change (gval 600 (-3) 7 (INR 1)) with (x 1%nat) in *. change (gval 600 (-3) 7 (INR 2)) with (x 2%nat) in *.
  pose proof eps_pos as EP. pose proof eps_small as ES.
  assert (S0 : 1 / 100000 < x 1%nat - x 0%nat).
  { apply (library_spacing 0); rewrite energy_table_eq; apply at_gval; lia. }
  assert (S1 : 1 / 100000 < x 2%nat - x 1%nat).
  { apply (library_spacing 1); rewrite energy_table_eq; apply at_gval; lia. }
  assert (TOP : forall i, (i < 600)%nat -> x i <= x (600 - 1)%nat) by (intros i I1; apply gval_le; [lia|exact Lim|]; apply le_INR; lia).
  pose proof (TOP 2%nat ltac:(lia)) as T2. pose proof (TOP 1%nat ltac:(lia)) as T1.
  exists y, s, (x 1%nat - numeric_epsilon), 0,
    (numeric_epsilon * ((x 2%nat - x 1%nat) - (x 1%nat - x 0%nat)) / 3 - numeric_epsilon ^ 3 / (3 * (x 2%nat - x 1%nat))).
  split; [exact L|]. split; [exact Hs|]. split; [|split].
  - destruct (search_choose 600 (-3) 7 N3 Lim (x 1%nat - numeric_epsilon)) as [[Q _]|(i & E & B & _ & C)]; [fold (x 0%nat) in Q; lra|].
    assert (i = 0%nat).
    { destruct i as [|i]; [reflexivity|exfalso]. destruct C as [[C _]|[_ (v & Hv & W)]].
      - assert (x 1%nat <= x (S i)) by (apply gval_le; [lia|exact Lim|]; apply le_INR; lia). fold (x (S i)) in C. lra.
      - unfold last_of in Hv. rewrite et_n_R in Hv. apply at_in in Hv. destruct Hv as [_ ->]. fold (x (600 - 1)%nat) in W. lra. }
    subst i. destruct (search_piece 600 (-3) 7 N3 y (0, 0) s Hs (x 1%nat - numeric_epsilon) 0) as [Ev _]; [fold (x 0%nat); lra|exact E|lia| |].
    + intros Q. exfalso. fold (x (600 - 1)%nat) in Q. lra.
    + rewrite Ev. f_equal. unfold piece. cbv zeta. rewrite A0, B0, C0, Y0. ring.
  - destruct (choose 600 (-3) 7 N3 NM Lim (x 1%nat - numeric_epsilon)) as [Q|(i & E & B & C)]; [fold (x 0%nat) in Q; lra|].
    assert (i = 1%nat).
    { destruct i as [|[|i]]; [exfalso|reflexivity|exfalso].
      - fold (x 0%nat) (x 1%nat) in C. destruct C as [[_ C]|[C _]]; [specialize (C ltac:(lia))|]; lra.
      - assert (x 2%nat <= x (S (S i))) by (apply gval_le; [lia|exact Lim|]; apply le_INR; lia).
        fold (x (S (S i))) in C. destruct C as [[C _]|[C _]]; lra. }
    subst i. destruct (eval_piece 600 (-3) 7 N3 y (0, 0) s Hs (x 1%nat - numeric_epsilon) 1) as [Ev _]; [fold (x 0%nat); lra|exact E|lia| |].
    + intros Q. exfalso. fold (x (600 - 1)%nat) in Q. lra.
    + rewrite Ev. f_equal. unfold piece. cbv zeta. fold (x 1%nat). rewrite A1, B1, C1, Y1. field. lra.
  - pose proof (gval_ratio 600 (-3) 7 (INR 0)) as R1. pose proof (gval_ratio 600 (-3) 7 (INR 1)) as R2.
    replace (INR 0 + 1) with (INR 1) in R1 by (cbn; ring). replace (INR 1 + 1) with (INR 2) in R2 by (cbn; ring).
    fold (x 0%nat) (x 1%nat) (x 2%nat) in R1, R2.
    assert (P : 0 < x 0%nat) by apply gval_pos. assert (P1 : 0 < x 1%nat) by apply gval_pos.
    set (rr := exp (LN10_ * gstep 600 (-3) 7)) in *.
    assert (E1 : x 1%nat = x 0%nat * rr) by (rewrite <- R1; field; lra).
    assert (E2 : x 2%nat = x 1%nat * rr) by (rewrite <- R2; field; lra).
    assert (G : (x 2%nat - x 1%nat) - (x 1%nat - x 0%nat) = (x 1%nat - x 0%nat) * (rr - 1)) by (rewrite E2, E1; ring).
    assert (RR : 1 / 100000 < rr - 1).
    { assert (LG : 1 / 100 < LN10_ (F:=R) * gstep 600 (-3) 7).
      { unfold LN10_, gstep. numR. replace (INR 600) with 600 by (rewrite INR_IZR_INZ; reflexivity). dec_norm. lra. }
      assert (1 + LN10_ * gstep 600 (-3) 7 < rr) by (apply exp_ineq1; lra). lra. }
    assert (G2 : / 100000 * / 100000 < (x 2%nat - x 1%nat) - (x 1%nat - x 0%nat)).
    { rewrite G. apply Rmult_gt_0_lt_compat; lra. }
    set (q := (x 2%nat - x 1%nat) - (x 1%nat - x 0%nat)) in *. set (h := x 2%nat - x 1%nat) in *.
    set (e := numeric_epsilon (F:=R)) in *.
    replace (e * q / 3 - e ^ 3 / (3 * h)) with (e / 3 * (q - e * e * / h)) by (field; lra).
    apply Rmult_lt_0_compat; [lra|].
    assert (H1 : e * e < / 100000000000000 * / 100000000000000) by (apply Rmult_gt_0_lt_compat; lra).
    assert (H2 : / h < 100000).
    { replace 100000 with (/ (1 / 100000)) by field. apply Rinv_lt_contravar; [|lra]. apply Rmult_lt_0_compat; lra. }
    assert (H3 : e * e * / h < / 100000000000000 * / 100000000000000 * 100000).
    { apply Rmult_gt_0_lt_compat; [apply Rinv_0_lt_compat; lra|lra|assumption|assumption]. }
    lra.
Qed.
Print Assumptions C66_search_window_refuted.

(** ** The linear interpolation in the coefficient tables *)
Section Interp.
  Variables (n : nat) (lmin lmax : R).
  Hypothesis n2 : (2 <= n)%nat.
  Hypothesis lim : lmin < lmax.
  Variables (y : Z -> outcome R) (yv : nat -> R).
  Hypothesis tabulated : forall k, (k < n)%nat -> y (Z.of_nat k) = Ok (yv k).
  Notation tab := (et_make n lmin lmax).
  Notation X i := (gval n lmin lmax (INR i)).

  Lemma search_interp x : et_interpolate_search tab x y =
    (if Rltb x (X 0) || Rltb (X (n - 1)) x then Ok (Rlit 0.0) else if Reqb x (X (n - 1)) then y (Z.of_nat n - 1)%Z else
     i <- et_index_search tab x ;; xi1 <- aget (et_values tab) (i + 1) ;; xi <- aget (et_values tab) i ;;
     if Reqb (xi1 - xi) (Rlit 0.0) then Ok xi
     else let l := Rlit 1.0 - (x - xi) / (xi1 - xi) in yi <- y i ;; yi1 <- y (i + 1)%Z ;; Ok (l * yi + (Rlit 1 - l) * yi1)).
  Proof.
    unfold et_interpolate_search. rewrite et_n_R. rewrite !et_aget by lia. cbn [bind]. change (gval n lmin lmax 0) with (X 0).
    replace (gval n lmin lmax (IZR (Z.of_nat n - 1))) with (X (n - 1)) by (f_equal; rewrite minus_INR, minus_IZR, <- INR_IZR_INZ by lia; reflexivity). reflexivity.
  Qed.
  (** between two neighbours, the value of the chord: with the tolerance below the last energy only *)
  Theorem C66_search_interpolates k a b x last : at_ tab k = Some a -> at_ tab (S k) = Some b -> last_of tab last -> a <= x < b -> x < last - numeric_epsilon ->
    exists v, et_interpolate_search tab x y = Ok v /\ on_chord a (yv k) b (yv (S k)) x v /\ Rmin (yv k) (yv (S k)) <= v <= Rmax (yv k) (yv (S k)).
  Proof.
    intros Ha Hb Hl AB U. pose proof eps_pos as EP. destruct (C66_search_lookup n lmin lmax n2 lim x (X 0) last ltac:(apply at_gval; lia) Hl) as (_ & _ & IN).
    unfold last_of in Hl. rewrite et_n_R in Hl. apply at_in in Ha, Hb, Hl. destruct Ha as [_ ->], Hb as [K ->], Hl as [_ ->].
    assert (F0 : X 0 <= X k) by (apply gval_le; [lia|exact lim|]; apply le_INR; lia).
    destruct (IN ltac:(lra)) as (i & a & b & E & Ha & Hb & I1). apply at_in in Ha, Hb. destruct Ha as [_ ->], Hb as [K' ->].
    assert (i = k).
    { destruct (Nat.lt_total i k) as [Q|[Q|Q]]; [exfalso|exact Q|exfalso].
      - pose proof (gval_le n lmin lmax n2 lim (INR (S i)) (INR k) ltac:(apply le_INR; lia)). lra.
      - pose proof (gval_le n lmin lmax n2 lim (INR (S k)) (INR i) ltac:(apply le_INR; lia)). lra. }
    subst i. rewrite search_interp. destruct (Rltb_spec x (X 0)); [lra|]. destruct (Rltb_spec (X (n - 1)) x); [lra|]. cbn [orb]. destruct (Reqb_spec x (X (n - 1))); [lra|].
    rewrite E. cbn [bind]. rewrite !et_aget by lia. cbn [bind].
    replace (gval n lmin lmax (IZR (Z.of_nat k + 1))) with (X (S k)) by (f_equal; rewrite S_INR, plus_IZR, <- INR_IZR_INZ; reflexivity). rewrite <- INR_IZR_INZ.
    replace (Z.of_nat k + 1)%Z with (Z.of_nat (S k)) by lia. rewrite (tabulated k), (tabulated (S k)) by lia. cbn [bind].
    set (p := X k) in *. set (q := X (S k)) in *. set (y0 := yv k). set (y1 := yv (S k)). replace (Rlit 0.0) with 0 by (dec_norm; lra). destruct (Reqb_spec (q - p) 0); [lra|].
    eexists. split; [reflexivity|]. replace (Rlit 1.0) with 1 by (dec_norm; lra). replace (Rlit 1) with 1 by (dec_norm; lra).
    set (l := (x - p) / (q - p)). assert (HX : x - p = l * (q - p)) by (unfold l; field; lra).
    assert (L0 : 0 <= l) by (apply Rmult_le_reg_r with (q - p); lra). assert (L1 : l < 1) by (apply Rmult_lt_reg_r with (q - p); lra).
    split.
    - unfold on_chord. rewrite HX. ring.
    - pose proof (Rmin_l y0 y1). pose proof (Rmin_r y0 y1). pose proof (Rmax_l y0 y1). pose proof (Rmax_r y0 y1).
      set (mi := Rmin y0 y1) in *. set (ma := Rmax y0 y1) in *. split; nra.
  Qed.
  (** at the last energy the last value, outside the table 0 *)
  Theorem C66_search_ends x first last : first_of tab first -> last_of tab last ->
    (x < first \/ last < x -> et_interpolate_search tab x y = Ok 0) /\ et_interpolate_search tab last y = Ok (yv (n - 1)).
  Proof.
    unfold last_of, first_of. rewrite et_n_R. intros Hf Hl. apply at_in in Hf, Hl. destruct Hf as [_ ->], Hl as [_ ->]. rewrite !search_interp. split.
    - intros H. destruct (Rltb_spec x (X 0)), (Rltb_spec (X (n - 1)) x); cbn [orb]; try (f_equal; dec_norm; lra); lra.
    - pose proof (gval_le n lmin lmax n2 lim (INR 0) (INR (n - 1)) ltac:(apply le_INR; lia)). destruct (Rltb_spec (X (n - 1)) (X 0)); [lra|]. destruct (Rltb_spec (X (n - 1)) (X (n - 1))); [lra|]. cbn [orb].
      destruct (Reqb_spec (X (n - 1)) (X (n - 1))); [|lra]. replace (Z.of_nat n - 1)%Z with (Z.of_nat (n - 1)) by lia. apply tabulated. lia.
  Qed.
  (** within the tolerance below the last energy this build, too, reads past the grid *)
  Theorem C66_search_gap x first last : first_of tab first -> last_of tab last -> first <= x -> last - numeric_epsilon <= x < last -> et_interpolate_search tab x y = UB OutOfBounds.
  Proof.
    intros Hf Hl X0 W. destruct (C66_search_lookup n lmin lmax n2 lim x first last Hf Hl) as (_ & UP & _). specialize (UP X0 ltac:(lra)).
    unfold last_of, first_of in *. rewrite et_n_R in Hl. apply at_in in Hf, Hl. destruct Hf as [_ ->], Hl as [_ ->]. rewrite search_interp.
    destruct (Rltb_spec x (X 0)); [lra|]. destruct (Rltb_spec (X (n - 1)) x); [lra|]. cbn [orb]. destruct (Reqb_spec x (X (n - 1))); [lra|].
    rewrite UP. cbn [bind]. rewrite aget_UB; [reflexivity|]. rewrite et_values_length. lia.
  Qed.
End Interp.
Print Assumptions C66_search_interpolates.
(** so in the grid of the Lindhard-Soerensen tables *)
Theorem C66_search_interpolate_refuted : exists x, forall y, et_interpolate_search (ls_energy_table (F:=R)) x y = UB OutOfBounds.
Proof.
  rewrite ls_table_eq. assert (LT : gfirst 200 0 7 < glast 200 0 7 - numeric_epsilon).
  { pose proof (ls_spacing 198) as SP. rewrite ls_table_eq in SP. specialize (SP _ _ (at_gval 200 0 7 198 ltac:(lia)) (at_gval 200 0 7 199 ltac:(lia))).
    assert (gfirst 200 0 7 <= gval 200 0 7 (INR 198)) by (unfold gfirst; apply gval_le; [lia|lra|apply pos_INR]).
    replace (glast 200 0 7) with (gval 200 0 7 (INR 199)) by (unfold glast; f_equal; rewrite !INR_IZR_INZ, <- minus_IZR; reflexivity). lra. }
  exists (glast 200 0 7 - numeric_epsilon). intros y. pose proof eps_pos. apply (C66_search_gap 200 0 7 ltac:(lia) ltac:(lra) y _ (gfirst 200 0 7) (glast 200 0 7)).
  - apply at_gval. lia.
  - unfold last_of. rewrite et_n_R, at_gval by lia. f_equal. unfold glast. f_equal. rewrite !INR_IZR_INZ, <- minus_IZR. reflexivity.
  - lra.
  - lra.
Qed.
Print Assumptions C66_search_interpolate_refuted.
Print Assumptions C66_search_ends.
Print Assumptions C66_search_gap.

(** binary64: the energy 1e7 and NaN, at which the default build reads outside the grid or converts NaN to int (C19), are looked up *)
Example C66_search_1e7 lm : exists i j, et_index_search (N:=NumF lm) (energy_table (N:=NumF lm)) 10000000%float = Ok i /\ (-1 <= i <= 599)%Z /\ et_index_search (N:=NumF lm) (energy_table (N:=NumF lm)) nan = Ok j /\ (-1 <= j <= 599)%Z.
Proof.
  destruct (C66_search_safe (N:=NumF lm) 600 (logEmin (N:=NumF lm)) (logEmax (N:=NumF lm)) 10000000%float ltac:(lia)) as (i & E & B). destruct (C66_search_safe (N:=NumF lm) 600 (logEmin (N:=NumF lm)) (logEmax (N:=NumF lm)) nan ltac:(lia)) as (j & E' & B').
  exists i, j. split; [exact E|]. split; [lia|]. split; [exact E'|lia].
Qed.
