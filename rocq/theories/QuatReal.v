(** * Quaternion formulas over the reals

    The formulas of Quaternion.v at [A := R]: the polynomials the code computes,
    without rounding. *)

From Coq Require Import ZArith Reals Lra.
From Verif Require Import Base Spec Float Vector Quaternion.
Open Scope R_scope.

Definition arith_R : Arith R := {|
  a0 := 0; a1 := 1; a2 := 2;
  aadd := Rplus; asub := Rminus; amul := Rmult; aneg := Ropp |}.

Definition Rq_mul := @q_mul R arith_R.
Definition Rq_conj := @q_conj R arith_R.
Definition Rq_norm := @q_norm R arith_R.
Definition Rq_dot := @q_dot R arith_R.
Definition Rq_add := @q_add R arith_R.
Definition Rq_scale := @q_scale R arith_R.
Definition Rq_rotate := @q_rotate R arith_R.
Definition Rq_one : Quat R := mkQ 1 0 0 0.
Definition Rq_i : Quat R := mkQ 0 1 0 0.
Definition Rq_j : Quat R := mkQ 0 0 1 0.
Definition Rq_k : Quat R := mkQ 0 0 0 1.
Definition Rq_vec (v : Vector3d R) : Quat R := mkQ 0 (v3x v) (v3y v) (v3z v).
Definition Rdot3 (u v : Vector3d R) : R := v3x u * v3x v + v3y u * v3y v + v3z u * v3z v.
Definition Rcross (u v : Vector3d R) : Vector3d R :=
  mkV3 (v3y u * v3z v - v3z u * v3y v) (v3z u * v3x v - v3x u * v3z v) (v3x u * v3y v - v3y u * v3x v).
Definition Rscale3 (k : R) (v : Vector3d R) : Vector3d R := mkV3 (k * v3x v) (k * v3y v) (k * v3z v).

(** The real quaternion / vector held by floats. *)
Definition Q_R (q : Quat f32) : Quat R := mkQ (val (q0 q)) (val (q1 q)) (val (q2 q)) (val (q3 q)).
Definition V3_R (v : Vector3d f32) : Vector3d R := mkV3 (val (v3x v)) (val (v3y v)) (val (v3z v)).

Ltac rq :=
  unfold Rq_mul, Rq_conj, Rq_norm, Rq_dot, Rq_add, Rq_scale, Rq_rotate, Rq_one, Rq_i, Rq_j, Rq_k, Rq_vec, Rdot3, Rcross, Rscale3,
    q_mul, q_conj, q_norm, q_dot, q_add, q_scale, q_rotate;
  cbn [a0 a1 a2 aadd asub amul aneg arith_R q0 q1 q2 q3 v3x v3y v3z];
  try (f_equal; ring); try ring.

Lemma Rq_table : Rq_mul Rq_i Rq_i = Rq_scale Rq_one (-1) /\ Rq_mul Rq_j Rq_j = Rq_scale Rq_one (-1) /\
  Rq_mul Rq_k Rq_k = Rq_scale Rq_one (-1) /\
  Rq_mul Rq_i Rq_j = Rq_k /\ Rq_mul Rq_j Rq_i = Rq_scale Rq_k (-1) /\
  Rq_mul Rq_j Rq_k = Rq_i /\ Rq_mul Rq_k Rq_j = Rq_scale Rq_i (-1) /\
  Rq_mul Rq_k Rq_i = Rq_j /\ Rq_mul Rq_i Rq_k = Rq_scale Rq_j (-1).
Proof. repeat split; rq. Qed.

Lemma Rq_mul_assoc : forall p q r, Rq_mul (Rq_mul p q) r = Rq_mul p (Rq_mul q r).
Proof. intros. rq. Qed.
Lemma Rq_mul_add : forall p q r, Rq_mul p (Rq_add q r) = Rq_add (Rq_mul p q) (Rq_mul p r) /\
  Rq_mul (Rq_add q r) p = Rq_add (Rq_mul q p) (Rq_mul r p).
Proof. intros. split; rq. Qed.
Lemma Rq_norm_mul : forall p q, Rq_norm (Rq_mul p q) = Rq_norm p * Rq_norm q.
Proof. intros. rq. Qed.
Lemma Rq_mul_scale : forall p q k, Rq_mul (Rq_scale p k) q = Rq_scale (Rq_mul p q) k /\
  Rq_mul p (Rq_scale q k) = Rq_scale (Rq_mul p q) k.
Proof. intros. split; rq. Qed.
Lemma Rq_conj_mul : forall p q, Rq_conj (Rq_mul p q) = Rq_mul (Rq_conj q) (Rq_conj p).
Proof. intros. rq. Qed.
Lemma Rq_mul_conj : forall q, Rq_mul q (Rq_conj q) = Rq_scale Rq_one (Rq_norm q) /\
  Rq_mul (Rq_conj q) q = Rq_scale Rq_one (Rq_norm q).
Proof. intros. split; rq. Qed.

Lemma Rq_rotate_is_conjugation : forall q v,
  Rq_mul (Rq_mul q (Rq_vec v)) (Rq_conj q) = Rq_vec (Rq_rotate q v).
Proof. intros. rq. Qed.
Lemma Rq_rotate_dot : forall q u v, Rdot3 (Rq_rotate q u) (Rq_rotate q v) = Rq_norm q * Rq_norm q * Rdot3 u v.
Proof. intros. rq. Qed.
Lemma Rq_rotate_cross : forall q u v,
  Rcross (Rq_rotate q u) (Rq_rotate q v) = Rscale3 (Rq_norm q) (Rq_rotate q (Rcross u v)).
Proof. intros. rq. Qed.
Lemma Rq_rotate_mul : forall p q v, Rq_rotate (Rq_mul p q) v = Rq_rotate p (Rq_rotate q v).
Proof. intros. rq. Qed.
Lemma Rq_rotate_axis : forall q, Rq_rotate q (mkV3 (q1 q) (q2 q) (q3 q)) = Rscale3 (Rq_norm q) (mkV3 (q1 q) (q2 q) (q3 q)).
Proof. intros. rq. Qed.

(** The construction of [from_two_vectors] over the reals, with [n] = |u||v|. *)
Definition Rq_between (n : R) (u v : Vector3d R) : Quat R :=
  let w := Rcross u v in mkQ (n + Rdot3 u v) (v3x w) (v3y w) (v3z w).

Lemma Rq_between_norm : forall n u v, n * n = Rdot3 u u * Rdot3 v v ->
  Rq_norm (Rq_between n u v) = 2 * n * (n + Rdot3 u v).
Proof.
  intros n [a b c] [d e f] H. unfold Rq_between. revert H. rq. intros H.
  match type of H with _ = ?r => replace (2 * n * (n + (a * d + b * e + c * f))) with
    (n * n + n * n + 2 * n * (a * d + b * e + c * f)) by ring; rewrite H at 2 end. ring.
Qed.

(** It turns [u] into the direction of [v]. *)
Lemma Rq_between_rotates : forall n u v, n * n = Rdot3 u u * Rdot3 v v ->
  Rscale3 (Rdot3 v v) (Rq_rotate (Rq_between n u v) u) =
  Rscale3 (n * Rq_norm (Rq_between n u v)) v.
Proof.
  intros n u v H. rewrite Rq_between_norm by exact H. destruct u as [a b c], v as [d e f].
  unfold Rq_between. revert H. rq. intros H. 
  f_equal; ring [H].
Qed.
