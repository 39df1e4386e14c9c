(** * Textbook formulas for quaternions and cross products

    Written with dot and cross products of real triples, not with the
    expanded polynomials of quaternion.rs. Only the record types come from
    the model. *)

From Coq Require Import ZArith Reals.
From Verif Require Import Base Spec Float Vector Quaternion.
Open Scope R_scope.

Definition T_dot (u v : Vector3d R) : R := v3x u * v3x v + v3y u * v3y v + v3z u * v3z v.
Definition T_cross (u v : Vector3d R) : Vector3d R :=
  mkV3 (v3y u * v3z v - v3z u * v3y v) (v3z u * v3x v - v3x u * v3z v) (v3x u * v3y v - v3y u * v3x v).
Definition T_add (u v : Vector3d R) : Vector3d R := mkV3 (v3x u + v3x v) (v3y u + v3y v) (v3z u + v3z v).
Definition T_scale (k : R) (v : Vector3d R) : Vector3d R := mkV3 (k * v3x v) (k * v3y v) (k * v3z v).

(** Scalar and vector part. *)
Definition T_vec (q : Quat R) : Vector3d R := mkV3 (q1 q) (q2 q) (q3 q).
Definition T_mk (s : R) (v : Vector3d R) : Quat R := mkQ s (v3x v) (v3y v) (v3z v).

(** (s, u)(t, v) = (s t - u.v, s v + t u + u x v). *)
Definition T_mul (p q : Quat R) : Quat R :=
  T_mk (q0 p * q0 q - T_dot (T_vec p) (T_vec q))
       (T_add (T_add (T_scale (q0 p) (T_vec q)) (T_scale (q0 q) (T_vec p))) (T_cross (T_vec p) (T_vec q))).
Definition T_conj (q : Quat R) : Quat R := T_mk (q0 q) (T_scale (-1) (T_vec q)).
Definition T_qdot (p q : Quat R) : R := q0 p * q0 q + T_dot (T_vec p) (T_vec q).

(** (s^2 - u.u) v + 2 (u.v) u + 2 s (u x v). *)
Definition T_rotate (q : Quat R) (v : Vector3d R) : Vector3d R :=
  let s := q0 q in let u := T_vec q in
  T_add (T_add (T_scale (s * s - T_dot u u) v) (T_scale (2 * T_dot u v) u)) (T_scale (2 * s) (T_cross u v)).

(** Euclidean length. *)
Definition norm3 (u : Vector3d R) : R := sqrt (T_dot u u).
Definition fin_vec (u : Vector3d f32) : Prop := fin (v3x u) /\ fin (v3y u) /\ fin (v3z u).

(** Rodrigues' formula: [x] turned by the angle [t] about the unit vector [v]. *)
Definition T_rodrigues (v : Vector3d R) (t : R) (x : Vector3d R) : Vector3d R :=
  T_add (T_add (T_scale (cos t) x) (T_scale (sin t) (T_cross v x))) (T_scale ((1 - cos t) * T_dot v x) v).
