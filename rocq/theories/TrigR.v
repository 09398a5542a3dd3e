(** * The trigonometric functions on the reals *)
From Coq Require Import Reals Lra.
From Verif Require Import Num NumR Lindhard.
Local Open Scope R_scope.

(** the angle of the point (x, y), in (-PI, PI]; 0 for the origin as in C *)
Definition Ratan2 (y x : R) : R :=
  if Rlt_dec 0 x then atan (y / x)
  else if Rlt_dec x 0 then (if Rlt_dec y 0 then atan (y / x) - PI else atan (y / x) + PI)
  else if Rlt_dec 0 y then PI / 2 else if Rlt_dec y 0 then - (PI / 2) else 0.

#[global] Instance TrigR : Trig R := {
  fsin := sin; fcos := cos; fsinh := sinh; fcosh := cosh; fatan2 := Ratan2
}.

(** it is that angle *)
Lemma cos_atan_pos t : 0 < cos (atan t).
Proof. pose proof (atan_bound t). apply cos_gt_0; lra. Qed.
Lemma atan_polar x y : x <> 0 -> let r := sqrt (x * x + y * y) in let s := if Rlt_dec 0 x then 1 else -1 in
  x = s * (r * cos (atan (y / x))) /\ y = s * (r * sin (atan (y / x))).
Proof.
  intros X r s. set (t := atan (y / x)). pose proof (cos_atan_pos (y / x)) as C. fold t in C.
  assert (T : sin t = y / x * cos t). { rewrite <- (tan_atan (y / x)) at 1. fold t. unfold tan. field. lra. }
  assert (RC : r * cos t = Rabs x).
  { unfold r. apply Rsqr_inj; [apply Rmult_le_pos; [apply sqrt_pos|lra]|apply Rabs_pos|].
    unfold Rsqr. rewrite <- Rabs_mult, (Rabs_right (x * x)) by (apply Rle_ge; pose proof (Rle_0_sqr x); unfold Rsqr in *; lra).
    replace (sqrt (x * x + y * y) * cos t * (sqrt (x * x + y * y) * cos t)) with (sqrt (x * x + y * y) * sqrt (x * x + y * y) * (cos t * cos t)) by ring.
    rewrite sqrt_sqrt by nra. pose proof (sin2_cos2 t) as SC. unfold Rsqr in SC. rewrite T in SC.
    replace ((x * x + y * y) * (cos t * cos t)) with (x * x * (y / x * cos t * (y / x * cos t) + cos t * cos t)) by (field; exact X). rewrite SC. ring. }
  rewrite T. replace (r * (y / x * cos t)) with (y / x * (r * cos t)) by ring. rewrite RC. unfold s.
  destruct (Rlt_dec 0 x) as [P|P]; [rewrite Rabs_right by lra|rewrite Rabs_left by lra]; split; field; exact X.
Qed.
Lemma Ratan2_polar x y : let r := sqrt (x * x + y * y) in x = r * cos (Ratan2 y x) /\ y = r * sin (Ratan2 y x).
Proof.
  intros r. unfold Ratan2. destruct (Rlt_dec 0 x) as [P|P].
  { destruct (atan_polar x y ltac:(lra)) as [A B]. revert A B. destruct (Rlt_dec 0 x); [|lra]. intros A B. fold r in A, B. split; lra. }
  destruct (Rlt_dec x 0) as [M|M].
  { destruct (atan_polar x y ltac:(lra)) as [A B]. revert A B. destruct (Rlt_dec 0 x); [lra|]. intros A B. fold r in A, B.
    destruct (Rlt_dec y 0).
    - replace (atan (y / x) - PI) with (- (PI - atan (y / x))) by ring. rewrite cos_neg, sin_neg, sin_PI_x. replace (cos (PI - atan (y / x))) with (- cos (atan (y / x))); [split; lra|].
      rewrite Rtrigo_facts.cos_pi_minus. reflexivity.
    - rewrite Rplus_comm, (Rplus_comm PI). rewrite neg_cos, neg_sin. split; lra. }
  assert (x = 0) by lra. subst x. unfold r. replace (0 * 0 + y * y) with (y * y) by ring.
  destruct (Rlt_dec 0 y); [|destruct (Rlt_dec y 0)].
  - rewrite sqrt_square by lra. rewrite cos_PI2, sin_PI2. split; ring.
  - replace (y * y) with (- y * - y) by ring. rewrite sqrt_square by lra. rewrite cos_neg, sin_neg, cos_PI2, sin_PI2. split; ring.
  - assert (y = 0) by lra. subst y. replace (0 * 0) with 0 by ring. rewrite sqrt_0. split; ring.
Qed.
Lemma Ratan2_range y x : - PI < Ratan2 y x <= PI.
Proof.
  pose proof (atan_bound (y / x)) as [A B]. pose proof PI_RGT_0. unfold Ratan2.
  destruct (Rlt_dec 0 x); [lra|]. destruct (Rlt_dec x 0).
  - destruct (Rlt_dec y 0).
    + assert (0 < y / x) by (replace (y / x) with (- y * / - x) by (field; lra); apply Rmult_lt_0_compat; [lra|apply Rinv_0_lt_compat; lra]).
      assert (0 < atan (y / x)) by (rewrite <- atan_0; now apply atan_increasing). lra.
    + assert (y / x <= 0). { replace (y / x) with (- (y * / - x)) by (field; lra). assert (0 <= y * / - x) by (apply Rmult_le_pos; [lra|left; apply Rinv_0_lt_compat; lra]). lra. }
      assert (atan (y / x) <= 0). { destruct (Req_dec (y / x) 0) as [->|]; [rewrite atan_0; lra|]. left. rewrite <- atan_0. apply atan_increasing. lra. } lra.
  - destruct (Rlt_dec 0 y); [lra|]. destruct (Rlt_dec y 0); lra.
Qed.
