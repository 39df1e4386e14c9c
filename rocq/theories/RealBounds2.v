(** * Error of the polynomial and rational approximations, over the reals

    Statements about the standard library's reals only, proved with interval
    arithmetic: nothing here mentions the model. *)

From Coq Require Import ZArith Reals Lra.
From Flocq Require Import Core.
From Interval Require Import Tactic.
Open Scope R_scope.

(** cos.rs: the parabola with its correction, on one reduced period. *)
Definition par (r : R) : R :=
  let y := r * (16 * (Rabs r - / 2)) in y + 15099494 / 67108864 * y * (Rabs y - 1).

Lemma sin_lo : forall r, 0 <= r <= 1/2 ->
  Rabs ((16 * r * (1/2 - r)) + 15099494 / 67108864 * (16 * r * (1/2 - r)) * ((16 * r * (1/2 - r)) - 1) - sin (2 * PI * r)) <= 0.00111.
Proof. intros r H. interval with (i_bisect r, i_taylor r, i_prec 40). Qed.
Lemma sin_hi : forall r, 1/2 <= r <= 0.508 ->
  Rabs (- (16 * r * (r - 1/2)) - 15099494 / 67108864 * (16 * r * (r - 1/2)) * ((16 * r * (r - 1/2)) - 1) - sin (2 * PI * r)) <= 0.00111.
Proof. intros r H. interval with (i_bisect r, i_taylor r, i_prec 40). Qed.

Lemma par_odd : forall r, par (- r) = - par r.
Proof.
  intros r. unfold par. rewrite Rabs_Ropp.
  replace (- r * (16 * (Rabs r - / 2))) with (- (r * (16 * (Rabs r - / 2)))) by ring. rewrite Rabs_Ropp. ring.
Qed.

Lemma par_sin_pos : forall r, 0 <= r <= 0.508 -> Rabs (par r + sin (2 * PI * r)) <= 0.00111.
Proof.
  intros r H. unfold par. rewrite (Rabs_pos_eq r) by lra. cbv zeta.
  destruct (Rle_or_lt r (1/2)) as [L|L].
  - rewrite (Rabs_left1 (r * (16 * (r - / 2)))).
    2:{ assert (0 <= r * (16 * (/ 2 - r))) by (apply Rmult_le_pos; lra). lra. }
    rewrite <- Rabs_Ropp. eapply Rle_trans; [|apply (sin_lo r); lra]. right. f_equal. field.
  - rewrite (Rabs_pos_eq (r * (16 * (r - / 2)))) by (apply Rmult_le_pos; lra).
    rewrite <- Rabs_Ropp. eapply Rle_trans; [|apply (sin_hi r); lra]. right. f_equal. field.
Qed.

Lemma par_sin : forall r, Rabs r <= 0.508 -> Rabs (par r + sin (2 * PI * r)) <= 0.00111.
Proof.
  intros r H. destruct (Rle_or_lt 0 r) as [P|P].
  - apply par_sin_pos. rewrite Rabs_pos_eq in H; lra.
  - rewrite Rabs_left in H by exact P. pose proof (par_sin_pos (- r) ltac:(lra)) as Q.
    rewrite par_odd in Q. replace (2 * PI * - r) with (- (2 * PI * r)) in Q by ring. rewrite sin_neg in Q.
    rewrite <- Rabs_Ropp. replace (- (par r + sin (2 * PI * r))) with (- par r + - sin (2 * PI * r)) by ring. exact Q.
Qed.

Lemma sin_abs_le : forall x, Rabs (sin x) <= Rabs x.
Proof.
  intros x. destruct (Rtotal_order x 0) as [L|[L|L]].
  - pose proof (sin_lt_x (- x) ltac:(lra)) as A. rewrite sin_neg in A. rewrite (Rabs_left x) by exact L.
    destruct (Rle_or_lt (-1) x) as [M|M].
    + assert (0 <= - sin x).
      { rewrite <- sin_neg. apply sin_ge_0; [lra|]. pose proof (PI_ineq 0). pose proof PI_RGT_0.
        assert (1 < PI). { interval. } lra. }
      rewrite Rabs_left1; lra.
    + pose proof (SIN_bound x). apply Rabs_le. lra.
  - rewrite L, sin_0, Rabs_R0. lra.
  - pose proof (sin_lt_x x L) as A. rewrite (Rabs_pos_eq x) by lra.
    destruct (Rle_or_lt x 1) as [M|M].
    + assert (0 <= sin x). { apply sin_ge_0; [lra|]. assert (1 < PI) by interval. lra. }
      rewrite Rabs_pos_eq; lra.
    + pose proof (SIN_bound x). apply Rabs_le. lra.
Qed.

Lemma sin_lip : forall a b, Rabs (sin a - sin b) <= Rabs (a - b).
Proof.
  intros a b. rewrite form4. rewrite 2!Rabs_mult. rewrite (Rabs_pos_eq 2) by lra.
  pose proof (sin_abs_le ((a - b) / 2)) as A.
  assert (B : Rabs (cos ((a + b) / 2)) <= 1) by (apply Rabs_le; pose proof (COS_bound ((a + b) / 2)); lra).
  replace (Rabs (a - b)) with (2 * 1 * Rabs ((a - b) / 2)).
  - apply Rmult_le_compat; [ | apply Rabs_pos | | ].
    + apply Rmult_le_pos; [lra|apply Rabs_pos].
    + apply Rmult_le_compat_l; [lra|exact B].
    + exact A.
  - unfold Rdiv. rewrite Rabs_mult, (Rabs_pos_eq (/ 2)) by lra. field.
Qed.

Lemma cos_lip : forall a b, Rabs (cos a - cos b) <= Rabs (a - b).
Proof.
  intros a b. rewrite !cos_sin. eapply Rle_trans; [apply sin_lip|]. right. f_equal. ring.
Qed.

(** Values used by the counterexamples and by tan. *)
Lemma cos_at_12869 : cos (13178508 / 1024) <= -0.102234.
Proof. interval with (i_prec 80). Qed.
Lemma sin_at_16044 : sin (16429365 / 1024) <= -0.186969.
Proof. interval with (i_prec 80). Qed.
Lemma tan_at_1_56 : tan (13086228 / 8388608) <= 92.6201.
Proof. interval with (i_prec 80). Qed.
Lemma cos_1_2 : forall x, Rabs x <= 1.2 -> 0.362 <= cos x.
Proof. intros x H. assert (-1.2 <= x <= 1.2) by (apply Rabs_le_inv in H; lra). interval with (i_bisect x, i_prec 40). Qed.
Lemma sin_1_2 : forall x, Rabs x <= 1.2 -> Rabs (sin x) <= 0.9325.
Proof. intros x H. assert (-1.2 <= x <= 1.2) by (apply Rabs_le_inv in H; lra). interval with (i_bisect x, i_prec 40). Qed.

(** atan.rs, atan2.rs: the rational approximation of an angle of the first quadrant. *)
Definition quad (A B C : R) : R := (B + C) / (A + B + (B + C)).
Definition cB : R := 10003029 / 16777216.

Lemma quad_angle : forall p, 0 <= p <= 1.5707963268 ->
  Rabs (PI / 2 * ((10003029 / 16777216 * sin p * cos p + sin p * sin p) / (1 + 10003029 / 8388608 * sin p * cos p)) - p) <= 0.002828.
Proof. intros p H. interval with (i_bisect p, i_taylor p, i_prec 40, i_depth 25). Qed.

(** x = rho cos p, y = rho sin p. *)
Lemma quad_acc : forall rho p, 0 < rho -> 0 <= p <= PI / 2 ->
  let x := rho * cos p in let y := rho * sin p in
  Rabs (PI / 2 * quad (x * x) (cB * x * y) (y * y) - p) <= 0.002828.
Proof.
  intros rho p Hr Hp x y.
  assert (PB : PI / 2 <= 1.5707963268) by interval with (i_prec 60).
  pose proof (quad_angle p ltac:(lra)) as Q.
  assert (S0 : 0 <= sin p) by (apply sin_ge_0; lra).
  assert (C0 : 0 <= cos p) by (apply cos_ge_0; lra).
  assert (SC : 0 <= sin p * cos p) by (apply Rmult_le_pos; assumption).
  pose proof (sin2_cos2 p) as ID. unfold Rsqr in ID.
  replace (quad (x * x) (cB * x * y) (y * y)) with
    ((10003029 / 16777216 * sin p * cos p + sin p * sin p) / (1 + 10003029 / 8388608 * sin p * cos p)); [exact Q|].
  unfold quad, cB, x, y.
  replace (rho * cos p * (rho * cos p) + 10003029 / 16777216 * (rho * cos p) * (rho * sin p) +
    (10003029 / 16777216 * (rho * cos p) * (rho * sin p) + rho * sin p * (rho * sin p)))
    with (rho * rho * ((sin p * sin p + cos p * cos p) + 10003029 / 8388608 * sin p * cos p)) by field.
  rewrite ID. field. split; [lra|]. 
  assert (0 < 1 + 10003029 / 8388608 * sin p * cos p) by lra. lra.
Qed.

Lemma atan_quad : forall t, 0 <= t -> Rabs (PI / 2 * quad 1 (cB * t) (t * t) - atan t) <= 0.002828.
Proof.
  intros t Ht. pose proof (atan_bound t) as AB.
  assert (A0 : 0 <= atan t). { destruct Ht as [Ht|Ht]; [left; rewrite <- atan_0; apply atan_increasing; exact Ht|rewrite <- Ht, atan_0; lra]. }
  assert (C : 0 < cos (atan t)) by (apply cos_gt_0; lra).
  assert (T : tan (atan t) = t) by (apply tan_atan || apply atan_right_inv).
  pose proof (quad_acc (/ cos (atan t)) (atan t) ltac:(apply Rinv_0_lt_compat; exact C) ltac:(lra)) as Q. cbv zeta in Q.
  assert (E1 : / cos (atan t) * cos (atan t) = 1) by (field; lra).
  assert (E2 : / cos (atan t) * sin (atan t) = t). { rewrite <- T at 3. unfold tan. field. lra. }
  rewrite E1, E2 in Q. rewrite !Rmult_1_r in Q. exact Q.
Qed.

Lemma atan_at_0_5625 : atan (9 / 16) <= 0.51239.
Proof. interval with (i_prec 60). Qed.
