(** * Energy grids: include/catima/storage.h:38-129 *)
From Coq Require Import ZArith List Bool.
From Verif Require Import Num Structures.
Import ListNotations.

(** EnergyTable<N>: storage.h:38-68.  [et_values] has N elements; [num] is N. *)
Record EnergyTable (F : Type) := mkET { et_n : nat; et_values : list F; et_step : F }.
Arguments mkET {F}. Arguments et_n {F}. Arguments et_values {F}. Arguments et_step {F}.

Section ET.
  Context {F : Type} {N : Num F}.
  Local Open Scope num_scope.

  (** storage.h:40-45: constructor *)
  Definition et_point (logmin step : F) (i : nat) : F :=
    fexp (LN10_ * (logmin + ofZ (Z.of_nat i) * step)).
  Definition et_make (n : nat) (logmin logmax : F) : EnergyTable F :=
    let step := (logmax - logmin) / (ofZ (Z.of_nat n) - lit 1.0) in
    mkET n (map (et_point logmin step) (seq 0 n)) step.

  (** storage.h:53-66: index, ET_CALCULATED_INDEX branch.
      The conversion to int and the access values[i+1] are unchecked in the code. *)
  Definition et_index (t : EnergyTable F) (v : F) : outcome Z :=
    let n := Z.of_nat (et_n t) in
    v0 <- aget (et_values t) 0 ;;
    if (v <? v0) || (et_step t =? lit 0.0) then Ok (-1)%Z
    else
      vl <- aget (et_values t) (n - 1) ;;
      if vl - numeric_epsilon <=? v then Ok (n - 1)%Z
      else
        let lxval := flog (v / v0) / LN10_ in
        i <- cast (fto_int (ffloor (lxval / et_step t))) ;;
        w <- aget (et_values t) (i + 1) ;;
        Ok (if w - numeric_epsilon <=? v then (i + 1)%Z else i).

  (** storage.h:62-63: the other preprocessor branch, std::upper_bound - 1.
      upper_bound over a sorted array = number of leading elements not above v. *)
  Fixpoint upper_bound (l : list F) (v : F) : Z :=
    match l with
    | [] => 0
    | x :: l' => if v <? x then 0 else (1 + upper_bound l' v)%Z
    end.
  Definition et_index_ub (t : EnergyTable F) (v : F) : outcome Z :=
    let n := Z.of_nat (et_n t) in
    v0 <- aget (et_values t) 0 ;;
    if (v <? v0) || (et_step t =? lit 0.0) then Ok (-1)%Z
    else
      vl <- aget (et_values t) (n - 1) ;;
      if vl - numeric_epsilon <=? v then Ok (n - 1)%Z
      else Ok (upper_bound (et_values t) v - 1)%Z.

  (** storage.h:70-81: EnergyTable_interpolate.  [y i] is the access y[i] through the pointer. *)
  Definition et_interpolate (t : EnergyTable F) (xval : F) (y : Z -> outcome F) : outcome F :=
    let n := Z.of_nat (et_n t) in
    v0 <- aget (et_values t) 0 ;;
    vl <- aget (et_values t) (n - 1) ;;
    if (xval <? v0) || (vl <? xval) then Ok (lit 0.0)
    else if xval =? vl then y (n - 1)%Z
    else
      i <- et_index t xval ;;
      xi1 <- aget (et_values t) (i + 1) ;;
      xi <- aget (et_values t) i ;;
      let linstep := xi1 - xi in
      if linstep =? lit 0.0 then Ok xi
      else
        let x := lit 1.0 - (xval - xi) / linstep in
        yi <- y i ;;
        yi1 <- y (i + 1)%Z ;;
        Ok (x * yi + (lit 1 - x) * yi1).

  (** storage.h:83-107: LogVArray<N> *)
  Record LogVArray := mkLV { lv_n : nat; lv_min : F; lv_max : F; lv_step : F }.
  Definition lv_make (n : nat) (logmin logmax : F) : LogVArray :=
    mkLV n logmin logmax ((logmax - logmin) / (ofZ (Z.of_nat n) - lit 1.0)).
  Definition lv_value (t : LogVArray) (i : Z) : F :=
    fexp (LN10_ * (lv_min t + ofZ i * lv_step t)).
  Definition lv_index (t : LogVArray) (v : F) : outcome Z :=
    let n := Z.of_nat (lv_n t) in
    if (v <? lv_value t 0) || (lv_step t =? lit 0.0) then Ok (-1)%Z
    else if lv_value t (n - 1) - numeric_epsilon <=? v then Ok (n - 1)%Z
    else
      let lxval := flog (v / lv_value t 0) / LN10_ in
      i <- cast (fto_int (ffloor (lxval / lv_step t))) ;;
      Ok (if lv_value t (i + 1) - numeric_epsilon <=? v then (i + 1)%Z else i).

  (** storage.h:109-130: LinearVArray<N>; the step stays 0 when max <= min *)
  Record LinearVArray := mkLin { lin_n : nat; lin_min : F; lin_max : F; lin_step : F }.
  Definition lin_make (n : nat) (mn mx : F) : LinearVArray :=
    mkLin n mn mx (if mx <=? mn then lit 0.0 else (mx - mn) / ofZ (Z.of_nat n - 1)).
  Definition lin_value (t : LinearVArray) (i : Z) : F := ofZ i * lin_step t + lin_min t.
  Definition lin_index (t : LinearVArray) (v : F) : outcome Z :=
    if (v <? lin_min t) || (lin_step t =? lit 0.0) then Ok (-1)%Z
    else if lin_max t <=? v then Ok (Z.of_nat (lin_n t) - 1)%Z
    else cast (fto_int (ffloor ((v - lin_min t) / lin_step t))).

  (** storage.cpp:25: the global grid; calculations.cpp (ls_coefficients): the LS grid is
      defined with the tables *)
  Definition energy_table : EnergyTable F := et_make (Z.to_nat max_datapoints) logEmin logEmax.
End ET.
Arguments LogVArray F : clear implicits.
Arguments LinearVArray F : clear implicits.
