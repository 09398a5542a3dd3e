(** * C49 in double precision: the energies the calculator computes for "min", "max" and "num" *)
From Flocq Require Import Core BinarySingleNaN PrimFloat.
From Coq Require Import ZArith QArith Reals Floats SpecFloat Bool Lia Lra List.
From Verif Require Import Num NumR NumF Structures Calculator Binary64 Binary64Lit Binary64Num PropRateFloat.
Import ListNotations.
Local Open Scope R_scope.

Lemma grid_point a b n i : fin a -> fin b -> 0 <= val a < val b -> / 10 ^ 6 <= val b <= 10 ^ 9 -> (2 <= n <= 10 ^ 9)%Z -> (0 <= i <= n - 1)%Z ->
  let r := (val b - val a) / (IZR n - 1) in let x := (a + F_of_Z i * ((b - a) / F_of_Z (n - 1)))%float in
  fin x /\ Rabs (val x - (val a + IZR i * r)) <= 5 * u * val b /\ (i = 0%Z -> val x = val a).
Proof.
  intros FA FB AB B N I r x. pose proof u_pos as UP. assert (U1 : / 10 ^ 16 <= u <= 12 / 10 ^ 17) by (unfold u; lra). pose proof big_ge as BG. pose proof tiny_small as TS. pose proof tiny_pos as TP.
  destruct (F_of_Z_val (n - 1)) as [FN VN]; [lia|]. destruct (F_of_Z_val i) as [FI VI]; [lia|]. rewrite minus_IZR in VN.
  assert (N1 : 1 <= IZR n - 1 <= 10 ^ 9). { assert (2 <= IZR n) by (apply (IZR_le 2); lia). assert (IZR n <= IZR (10 ^ 9)) by (apply IZR_le; lia). change (IZR (10 ^ 9)) with 1000000000 in *. lra. }
  assert (I1 : 0 <= IZR i <= IZR n - 1). { split; [apply (IZR_le 0); lia|]. rewrite <- minus_IZR. apply IZR_le. lia. }
  set (nn := IZR n - 1) in *. set (D := val b - val a) in *. assert (D0 : 0 < D <= val b) by (unfold D; lra).
  destruct (sub_val b a FB FA) as [FD VD]; [fold D; rewrite Rabs_pos_eq; lra|]. pose proof (rnd_error (val b - val a)) as DE. rewrite <- VD in DE. fold D in DE. rewrite (Rabs_pos_eq D) in DE by lra. set (d := (b - a)%float) in *.
  assert (DA : Rabs (val d) <= 3 * 10 ^ 9). { apply Rabs_le_inv in DE. apply Rabs_le. assert (u * D <= 1 * 10 ^ 9) by (apply Rmult_le_compat; lra). lra. }
  assert (IN : 0 < / nn <= 1). { split; [apply Rinv_0_lt_compat; lra|]. rewrite <- Rinv_1. apply Rinv_le; lra. }
  assert (QA : Rabs (val d / nn) <= 3 * 10 ^ 9). { unfold Rdiv. rewrite Rabs_mult, (Rabs_pos_eq (/ nn)) by lra. apply Rle_trans with (3 * 10 ^ 9 * 1); [apply Rmult_le_compat; auto using Rabs_pos; lra|lra]. }
  destruct (div_val d (F_of_Z (n - 1)) FD) as [FS VS]; [rewrite VN; lra|rewrite VN; lra|]. rewrite VN in VS. pose proof (rnd_error (val d / nn)) as SE. rewrite <- VS in SE. set (s := (d / F_of_Z (n - 1))%float) in *.
  (* the step *)
  assert (R0 : 0 < r) by (unfold r; apply Rdiv_lt_0_compat; lra). assert (RN : r * nn = D) by (unfold r; field; lra).
  assert (QE : Rabs (val d / nn - r) <= u * r + tiny). { replace (val d / nn - r) with ((val d - D) * / nn) by (unfold r, Rdiv; ring). rewrite Rabs_mult, (Rabs_pos_eq (/ nn)) by lra. apply Rle_trans with ((u * D + tiny) * / nn); [apply Rmult_le_compat_r; lra|]. replace ((u * D + tiny) * / nn) with (u * r + tiny * / nn) by (unfold r, Rdiv; ring). assert (tiny * / nn <= tiny * 1) by (apply Rmult_le_compat_l; lra). lra. }
  assert (ST : Rabs (val s - r) <= 21 / 10 * u * r + 3 * tiny).
  { replace (val s - r) with ((val s - val d / nn) + (val d / nn - r)) by ring. eapply Rle_trans; [apply Rabs_triang|].
    assert (Rabs (val d / nn) <= r + (u * r + tiny)) by (replace (val d / nn) with ((val d / nn - r) + r) by ring; eapply Rle_trans; [apply Rabs_triang|]; rewrite (Rabs_pos_eq r) by lra; lra).
    assert (u * Rabs (val d / nn) <= u * (r + (u * r + tiny))) by (apply Rmult_le_compat_l; lra). assert (u * (u * r) <= / 10 * (u * r)) by (apply Rmult_le_compat_r; [apply Rmult_le_pos|]; lra). assert (u * tiny <= 1 * tiny) by (apply Rmult_le_compat_r; lra). lra. }
  (* its multiple *)
  set (k := IZR i) in *. assert (KR : 0 <= k * r <= D). { split; [apply Rmult_le_pos; lra|]. rewrite <- RN, Rmult_comm. apply Rmult_le_compat_l; lra. }
  assert (ME : Rabs (k * val s - k * r) <= 21 / 10 * u * (k * r) + / 10 ^ 280). { replace (k * val s - k * r) with (k * (val s - r)) by ring. rewrite Rabs_mult, (Rabs_pos_eq k) by lra. apply Rle_trans with (k * (21 / 10 * u * r + 3 * tiny)); [apply Rmult_le_compat_l; lra|]. assert (k * tiny <= 10 ^ 9 * / 10 ^ 300) by (apply Rmult_le_compat; lra). assert (3 * (10 ^ 9 * / 10 ^ 300) <= / 10 ^ 280) by lra. lra. }
  assert (UK : 0 <= u * (k * r)) by (apply Rmult_le_pos; lra). assert (UD : u * (k * r) <= u * D) by (apply Rmult_le_compat_l; lra). assert (UB : u * D <= u * val b) by (apply Rmult_le_compat_l; lra). assert (UB9 : u * val b <= / 10 ^ 5) by (apply Rle_trans with (12 / 10 ^ 17 * 10 ^ 9); [apply Rmult_le_compat; lra|lra]).
  assert (MA : Rabs (k * val s) <= k * r + (21 / 10 * u * (k * r) + / 10 ^ 280)). { replace (k * val s) with ((k * val s - k * r) + k * r) by ring. eapply Rle_trans; [apply Rabs_triang|]. rewrite (Rabs_pos_eq (k * r)) by lra. lra. }
  destruct (mul_val (F_of_Z i) s FI FS) as [FM VM]; [rewrite VI; fold k; lra|]. rewrite VI in VM. fold k in VM. pose proof (rnd_error (k * val s)) as ME2. rewrite <- VM in ME2. set (m := (F_of_Z i * s)%float) in *.
  assert (UM : u * Rabs (k * val s) <= 11 / 10 * u * val b). { apply Rle_trans with (u * (11 / 10 * val b)); [|lra]. apply Rmult_le_compat_l; [lra|]. assert (21 / 10 * u * (k * r) <= / 20 * (k * r)) by (apply Rmult_le_compat_r; lra). assert (/ 10 ^ 280 <= / 20 * / 10 ^ 6) by lra. lra. }
  assert (M2 : Rabs (val m - k * r) <= 33 / 10 * u * val b). { replace (val m - k * r) with ((val m - k * val s) + (k * val s - k * r)) by ring. eapply Rle_trans; [apply Rabs_triang|]. assert (/ 10 ^ 16 * / 10 ^ 6 <= u * val b) by (apply Rmult_le_compat; lra). assert (tiny + / 10 ^ 280 <= / 10 * (/ 10 ^ 16 * / 10 ^ 6)) by lra. lra. }
  assert (TA : Rabs (val a + val m) <= 11 / 10 * val b). { replace (val a + val m) with ((val a + k * r) + (val m - k * r)) by ring. eapply Rle_trans; [apply Rabs_triang|]. rewrite (Rabs_pos_eq (val a + k * r)) by lra. assert (val a + k * r <= val b) by (unfold D in KR; lra). assert (33 / 10 * u * val b <= / 10 * val b) by (apply Rmult_le_compat_r; lra). lra. }
  destruct (add_val a m FA FM) as [FX VX]; [lra|]. change (a + m)%float with x in FX, VX. split; [exact FX|]. split.
  - pose proof (rnd_error (val a + val m)) as XE. rewrite <- VX in XE. replace (val x - (val a + k * r)) with ((val x - (val a + val m)) + (val m - k * r)) by ring. eapply Rle_trans; [apply Rabs_triang|].
    assert (u * Rabs (val a + val m) <= u * (11 / 10 * val b)) by (apply Rmult_le_compat_l; lra). assert (/ 10 ^ 16 * / 10 ^ 6 <= u * val b) by (apply Rmult_le_compat; lra). assert (tiny <= / 10 * (/ 10 ^ 16 * / 10 ^ 6)) by lra. lra.
  - intros ->. unfold k in VM. rewrite Rmult_0_l, rnd_0 in VM. rewrite VX, VM, Rplus_0_r. apply rnd_val.
Qed.
(** the points are a + i (b - a)/(n - 1) up to five half-units of the last place of the upper end, the first one is a, the last one b;
    they increase if their distance is not itself of that size *)
Theorem C49_binary64 lm a b n : fin a -> fin b -> 0 <= val a < val b -> / 10 ^ 6 <= val b <= 10 ^ 9 -> (2 <= n <= 10 ^ 9)%Z ->
  let r := (val b - val a) / (IZR n - 1) in let l := linspace_vector (N := NumF lm) a b n in
  List.length l = Z.to_nat n /\ val (nth 0 l zero) = val a /\ nth (Z.to_nat n - 1) l zero = b /\
  (forall i, (i < Z.to_nat n)%nat -> fin (nth i l zero) /\ Rabs (val (nth i l zero) - (val a + INR i * r)) <= 5 * u * val b) /\
  (12 * u * val b <= r -> forall i j, (i < j < Z.to_nat n)%nat -> val (nth i l zero) < val (nth j l zero)).
Proof.
  intros FA FB AB B N r l. pose proof u_pos as UP.
  assert (L : l = map (fun i => (a + F_of_Z (Z.of_nat i) * ((b - a) / F_of_Z (n - 1)))%float) (seq 0 (Z.to_nat (n - 1))) ++ [b]).
  { unfold l, linspace_vector. replace (2 <=? n)%Z with true by (symmetry; apply Z.leb_le; lia). change (fltb a b) with (a <? b)%float. destruct (ltb_val a b FA FB) as [_|X]; [reflexivity|lra]. }
  set (f := fun i => (a + F_of_Z (Z.of_nat i) * ((b - a) / F_of_Z (n - 1)))%float) in *. set (k := Z.to_nat (n - 1)) in *. assert (NK : Z.to_nat n = S k) by (unfold k; lia).
  assert (LEN : List.length (map f (seq 0 k)) = k) by (rewrite map_length, seq_length; reflexivity).
  assert (NTH : forall i, (i < k)%nat -> nth i l zero = f i). { intros i Hi. rewrite L, app_nth1 by (rewrite LEN; exact Hi). rewrite (nth_indep _ zero (f 0%nat)) by (rewrite LEN; exact Hi). rewrite map_nth, seq_nth by exact Hi. reflexivity. }
  assert (LAST : nth k l zero = b). { rewrite L, app_nth2 by (rewrite LEN; lia). rewrite LEN, Nat.sub_diag. reflexivity. }
  assert (RN : r * INR k = val b - val a). { unfold r. rewrite INR_IZR_INZ. unfold k. rewrite Z2Nat.id by lia. rewrite minus_IZR. field. assert (2 <= IZR n) by (apply (IZR_le 2); lia). lra. }
  assert (PT : forall i, (i < Z.to_nat n)%nat -> fin (nth i l zero) /\ Rabs (val (nth i l zero) - (val a + INR i * r)) <= 5 * u * val b).
  { intros i Hi. destruct (Nat.eq_dec i k) as [->|NE].
    - rewrite LAST. split; [exact FB|]. replace (val b - (val a + INR k * r)) with 0 by (rewrite (Rmult_comm (INR k)), RN; ring). rewrite Rabs_R0. apply Rmult_le_pos; lra.
    - rewrite NTH by lia. destruct (grid_point a b n (Z.of_nat i) FA FB AB B N) as (F1 & E1 & _); [unfold k in *; lia|]. fold r in E1. rewrite <- INR_IZR_INZ in E1. split; [exact F1|exact E1]. }
  rewrite NK in *. split; [rewrite L, app_length, LEN; cbn [List.length]; lia|]. split.
  { rewrite NTH by (unfold k; lia). destruct (grid_point a b n 0 FA FB AB B N ltac:(lia)) as (_ & _ & Z0). apply Z0. reflexivity. }
  split; [replace (S k - 1)%nat with k by lia; exact LAST|]. split; [exact PT|]. intros R12 i j [IJ J]. destruct (PT i ltac:(lia)) as [_ E1]. destruct (PT j J) as [_ E2]. apply Rabs_le_inv in E1. apply Rabs_le_inv in E2.
  assert (IR : INR i + 1 <= INR j) by (rewrite <- S_INR; apply le_INR; lia). assert (R0 : 0 < r) by (assert (0 < 12 * u * val b) by (apply Rmult_lt_0_compat; lra); lra). assert ((INR i + 1) * r <= INR j * r) by (apply Rmult_le_compat_r; lra). assert (0 < u * val b) by (apply Rmult_lt_0_compat; lra). lra.
Qed.
Print Assumptions C49_binary64.

(** ** A concrete case: the example of the manual, 100 to 1000 MeV/u in 91 points *)
Example C49_binary64_case : let a := 100%float in let b := 1000%float in fin a /\ fin b /\ 0 <= val a < val b /\ / 10 ^ 6 <= val b <= 10 ^ 9 /\ 12 * u * val b <= (val b - val a) / (IZR 91 - 1).
Proof.
  intros a b. unfold a, b. assert (VA : val 100%float = 100) by (rewrite val_SF; vm_compute Prim2SF; cbn; lra). assert (VB : val 1000%float = 1000) by (rewrite val_SF; vm_compute Prim2SF; cbn; lra). rewrite VA, VB.
  split; [apply fin_SF; vm_compute; exact I|]. split; [apply fin_SF; vm_compute; exact I|]. split; [lra|]. split; [lra|]. unfold u. lra.
Qed.
