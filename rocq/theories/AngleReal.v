(** * Angles of points, over the reals *)

From Coq Require Import ZArith Reals Lra.
From Flocq Require Import Core.
From Interval Require Import Tactic.
Open Scope R_scope.

(** Small angles from small sines. *)
Lemma sin_small_inv : forall y s s', Rabs y <= PI / 2 -> Rabs (sin y) <= s -> 0 <= s' <= PI / 2 -> s <= sin s' -> Rabs y <= s'.
Proof.
  intros y s s' Hy Hs Hs' K.
  assert (P : forall z, 0 <= z <= PI / 2 -> sin z <= s -> z <= s').
  { intros z Hz Sz. destruct (Rle_or_lt z s') as [L|L]; [exact L|exfalso].
    pose proof (sin_increasing_1 s' z ltac:(lra) ltac:(lra) ltac:(lra) ltac:(lra) L). lra. }
  apply Rabs_le_inv in Hs. destruct (Rle_or_lt 0 y) as [L|L].
  - rewrite Rabs_pos_eq in * by exact L. apply P; lra.
  - rewrite Rabs_left in * by exact L. apply P; [lra|]. rewrite sin_neg. lra.
Qed.

Lemma atan_pos : forall t, 0 <= t -> 0 <= atan t < PI / 2.
Proof.
  intros t H. pose proof (atan_bound t). split; [|lra].
  destruct H as [H|H]; [left; rewrite <- atan_0; apply atan_increasing; exact H|rewrite <- H, atan_0; lra].
Qed.

Lemma sin_atan_cos : forall t, sin (atan t) = t * cos (atan t).
Proof. intros t. rewrite sin_atan, cos_atan. unfold Rdiv. ring. Qed.
Lemma cos_atan_pos : forall t, 0 < cos (atan t).
Proof. intros t. pose proof (atan_bound t). apply cos_gt_0; lra. Qed.

(** Scaling the tangent by k moves the angle by at most |k-1|/(1+k) in sine. *)
Lemma atan_scale : forall t k, 0 <= t -> 0 < k -> Rabs (sin (atan (k * t) - atan t)) <= Rabs (k - 1) / (1 + k).
Proof.
  intros t k Ht Hk. rewrite sin_minus, !sin_atan_cos.
  set (ca := cos (atan (k * t))). set (cb := cos (atan t)).
  pose proof (cos_atan_pos (k * t)) as Pa. pose proof (cos_atan_pos t) as Pb. fold ca in Pa. fold cb in Pb.
  assert (Ia : ca * ca * (1 + k * t * (k * t)) = 1).
  { pose proof (sin2_cos2 (atan (k * t))) as I. unfold Rsqr in I. rewrite sin_atan_cos in I. fold ca in I. lra. }
  assert (Ib : cb * cb * (1 + t * t) = 1).
  { pose proof (sin2_cos2 (atan t)) as I. unfold Rsqr in I. rewrite sin_atan_cos in I. fold cb in I. lra. }
  replace (k * t * ca * cb - ca * (t * cb)) with ((k - 1) * (ca * cb * t)) by ring.
  assert (Q0 : 0 <= ca * cb * t) by (repeat apply Rmult_le_pos; lra).
  rewrite Rabs_mult, (Rabs_pos_eq (ca * cb * t)) by exact Q0.
  unfold Rdiv. apply Rmult_le_compat_l; [apply Rabs_pos|].
  apply Rmult_le_reg_r with (1 + k); [lra|]. rewrite Rinv_l by lra.
  apply Rsqr_incr_0_var; [|lra]. unfold Rsqr.
  replace (ca * cb * t * (1 + k) * (ca * cb * t * (1 + k))) with ((ca * ca) * (cb * cb) * ((t + k * t) * (t + k * t))) by ring.
  replace (1 * 1) with ((ca * ca * (1 + k * t * (k * t))) * (cb * cb * (1 + t * t))) by (rewrite Ia, Ib; ring).
  replace (ca * ca * (1 + k * t * (k * t)) * (cb * cb * (1 + t * t))) with (ca * ca * (cb * cb) * ((1 + k * t * (k * t)) * (1 + t * t))) by ring.
  apply Rmult_le_compat_l; [apply Rmult_le_pos; apply Rle_0_sqr|].
  pose proof (Rle_0_sqr (1 - k * t * t)) as S. unfold Rsqr in S. lra.
Qed.

(** The angle of the point (b, a), for a, b >= 0. *)
Definition ang (a b : R) : R := if Req_EM_T b 0 then PI / 2 else atan (a / b).

Lemma ang_range : forall a b, 0 <= a -> 0 <= b -> 0 <= ang a b <= PI / 2.
Proof.
  intros a b Ha Hb. unfold ang. pose proof PI_RGT_0. destruct (Req_EM_T b 0) as [Z|Z]; [lra|].
  assert (0 <= a / b) by (apply Rmult_le_pos; [exact Ha|apply Rlt_le, Rinv_0_lt_compat; lra]).
  pose proof (atan_pos _ H0). lra.
Qed.

Lemma ang_spec : forall a b, 0 <= a -> 0 <= b -> 0 < a * a + b * b ->
  exists h, 0 < h /\ h * h = a * a + b * b /\ h * sin (ang a b) = a /\ h * cos (ang a b) = b.
Proof.
  intros a b Ha Hb H. unfold ang. destruct (Req_EM_T b 0) as [Z|Z].
  - subst b. assert (0 < a). { destruct Ha as [Ha|Ha]; [exact Ha|]. subst a. lra. }
    exists a. rewrite sin_PI2, cos_PI2. repeat split; lra.
  - pose proof (cos_atan_pos (a / b)) as P. exists (b / cos (atan (a / b))).
    assert (0 < b) by lra.
    assert (I : cos (atan (a / b)) * cos (atan (a / b)) * (a * a + b * b) = b * b).
    { pose proof (sin2_cos2 (atan (a / b))) as I. unfold Rsqr in I. rewrite sin_atan_cos in I.
      replace (a * a + b * b) with (b * b * (a / b * (a / b) + 1)) by (field; lra).
      replace (cos (atan (a / b)) * cos (atan (a / b)) * (b * b * (a / b * (a / b) + 1))) with
        (b * b * (a / b * cos (atan (a / b)) * (a / b * cos (atan (a / b))) + cos (atan (a / b)) * cos (atan (a / b)))) by ring.
      rewrite I. ring. }
    split; [apply Rmult_lt_0_compat; [lra|apply Rinv_0_lt_compat; exact P]|]. split; [|split].
    + apply Rmult_eq_reg_l with (cos (atan (a / b)) * cos (atan (a / b))).
      * rewrite I. field. lra.
      * apply Rmult_integral_contrapositive. split; lra.
    + rewrite sin_atan_cos. field. split; lra.
    + field. lra.
Qed.

Lemma sqrt_diff : forall u v e, 0 <= u -> 0 <= v -> 0 <= e -> Rabs (u * u - v * v) <= e * e -> Rabs (u - v) <= e.
Proof.
  intros u v e Hu Hv He H. apply Rsqr_incr_0_var; [|exact He]. unfold Rsqr.
  rewrite <- Rabs_mult, (Rabs_pos_eq ((u - v) * (u - v))) by apply Rle_0_sqr.
  eapply Rle_trans; [|exact H]. apply Rabs_le_inv in H.
  destruct (Rle_or_lt v u) as [L|L].
  - rewrite Rabs_pos_eq.
    + assert (0 <= v * (u - v)) by (apply Rmult_le_pos; lra). lra.
    + assert (0 <= (u - v) * (u + v)) by (apply Rmult_le_pos; lra). lra.
  - rewrite Rabs_left1.
    + assert (0 <= u * (v - u)) by (apply Rmult_le_pos; lra). lra.
    + assert (0 <= (v - u) * (u + v)) by (apply Rmult_le_pos; lra). lra.
Qed.

Lemma sin_0003 : 0.000247 <= sin 0.0003.
Proof. interval with (i_prec 60). Qed.
Lemma PI2_big : 1.57 <= PI / 2.
Proof. interval. Qed.

(** Moving one coordinate of the unit circle by 2^-24 in its square moves the angle little. *)
Lemma ang_near : forall a b th, 0 <= a -> 0 <= b -> 0 <= th <= PI / 2 ->
  0.98 <= a * a + b * b -> Rabs (a * cos th - b * sin th) <= / 4096 ->
  Rabs (ang a b - th) <= 0.0003.
Proof.
  intros a b th Ha Hb Ht HD HN. destruct (ang_spec a b Ha Hb ltac:(lra)) as (h & Ph & Hh & Es & Ec).
  pose proof (ang_range a b Ha Hb) as R. pose proof PI2_big.
  apply (sin_small_inv _ 0.000247); [apply Rabs_le; lra| |lra|exact sin_0003].
  rewrite sin_minus. set (s := sin (ang a b)) in *. set (c := cos (ang a b)) in *.
  replace (s * cos th - c * sin th) with ((a * cos th - b * sin th) * / h) by (rewrite <- Es, <- Ec; field; lra).
  assert (0.989 <= h). { apply Rnot_lt_le. intros C. assert (h * h < 0.989 * 0.989) by (apply Rmult_le_0_lt_compat; lra). lra. }
  rewrite Rabs_mult, Rabs_inv, (Rabs_pos_eq h) by lra.
  apply Rmult_le_reg_r with h; [lra|]. rewrite Rmult_assoc, Rinv_l by lra. lra.
Qed.

Lemma ang_sin : forall c th, 0 <= c -> 0 <= th <= PI / 2 -> Rabs (c * c - cos th * cos th) <= / 16777216 ->
  Rabs (ang (sin th) c - th) <= 0.0003.
Proof.
  intros c th Hc Ht H. assert (S0 : 0 <= sin th) by (apply sin_ge_0; pose proof PI_RGT_0; lra).
  assert (C0 : 0 <= cos th) by (apply cos_ge_0; lra). pose proof (SIN_bound th). pose proof (sin2_cos2 th) as I. unfold Rsqr in I.
  assert (D : Rabs (c - cos th) <= / 4096) by (apply sqrt_diff; lra).
  apply Rabs_le_inv in H. apply ang_near; try assumption; [lra|].
  replace (sin th * cos th - c * sin th) with (sin th * - (c - cos th)) by ring.
  rewrite Rabs_mult, Rabs_Ropp, (Rabs_pos_eq (sin th)) by exact S0.
  apply Rle_trans with (1 * / 4096); [|lra]. apply Rmult_le_compat; try lra. apply Rabs_pos.
Qed.

Lemma ang_cos : forall s th, 0 <= s -> 0 <= th <= PI / 2 -> Rabs (s * s - sin th * sin th) <= / 16777216 ->
  Rabs (ang s (cos th) - th) <= 0.0003.
Proof.
  intros c th Hc Ht H. assert (S0 : 0 <= sin th) by (apply sin_ge_0; pose proof PI_RGT_0; lra).
  assert (C0 : 0 <= cos th) by (apply cos_ge_0; lra). pose proof (COS_bound th). pose proof (sin2_cos2 th) as I. unfold Rsqr in I.
  assert (D : Rabs (c - sin th) <= / 4096) by (apply sqrt_diff; lra).
  apply Rabs_le_inv in H. apply ang_near; try assumption; [lra|].
  replace (c * cos th - cos th * sin th) with (cos th * (c - sin th)) by ring.
  rewrite Rabs_mult, (Rabs_pos_eq (cos th)) by exact C0.
  apply Rle_trans with (1 * / 4096); [|lra]. apply Rmult_le_compat; try lra. apply Rabs_pos.
Qed.

Lemma atan_scale_035 : forall t k, 0 <= t -> Rabs (k - 1) <= 0.03471 -> Rabs (atan (k * t) - atan t) <= 0.01767.
Proof.
  intros t k Ht Hk. pose proof (Rabs_le_inv _ _ Hk) as K. pose proof PI2_big.
  pose proof (atan_pos t Ht). pose proof (atan_pos (k * t) ltac:(apply Rmult_le_pos; lra)).
  apply (sin_small_inv _ 0.0176652); [apply Rabs_le; lra| |lra|interval with (i_prec 60)].
  eapply Rle_trans; [apply atan_scale; [exact Ht|lra]|].
  apply Rmult_le_reg_r with (1 + k); [lra|]. unfold Rdiv. rewrite Rmult_assoc, Rinv_l by lra. rewrite Rmult_1_r.
  unfold Rabs in *. destruct (Rcase_abs (k - 1)); lra.
Qed.

Lemma atan_scale_06 : forall t k, 0 <= t -> 0.9999 <= k <= 1.06068 -> Rabs (atan (k * t) - atan t) <= 0.02946.
Proof.
  intros t k Ht K. pose proof PI2_big.
  pose proof (atan_pos t Ht). pose proof (atan_pos (k * t) ltac:(apply Rmult_le_pos; lra)).
  apply (sin_small_inv _ 0.029447); [apply Rabs_le; lra| |lra|interval with (i_prec 60)].
  eapply Rle_trans; [apply atan_scale; [exact Ht|lra]|].
  apply Rmult_le_reg_r with (1 + k); [lra|]. unfold Rdiv. rewrite Rmult_assoc, Rinv_l by lra. rewrite Rmult_1_r.
  unfold Rabs in *. destruct (Rcase_abs (k - 1)); lra.
Qed.

Lemma atan_large : forall t, 10000000000 <= t -> Rabs (atan t - PI / 2) <= 0.000001.
Proof.
  intros t H. pose proof (atan_inv t ltac:(lra)) as I. rewrite <- (Rinv_inv t) at 1.
  assert (P : 0 < / t) by (apply Rinv_0_lt_compat; lra).
  rewrite (atan_inv (/ t) P). pose proof (atan_pos (/ t) ltac:(lra)) as A.
  assert (B : / t <= / 10000000000) by (apply Rinv_le; lra).
  assert (atan (/ 10000000000) <= 0.000001) by interval.
  assert (atan (/ t) <= atan (/ 10000000000)).
  { destruct B as [B|B]; [left; apply atan_increasing; exact B|rewrite B; lra]. }
  apply Rabs_le. lra.
Qed.
