(** * Model of src/quaternion.rs

    The polynomial operations are written once over an arbitrary arithmetic
    [Arith A]: the code is the instance [arith_f32]; the same text at [A := R]
    (QuatReal.v) is used to state algebraic laws. *)

From Coq Require Import ZArith Bool List.
From Verif Require Import Base Float Vector.
Import ListNotations.
Open Scope Z_scope.

Class Arith (A : Type) : Type := {
  a0 : A; a1 : A; a2 : A;
  aadd : A -> A -> A;
  asub : A -> A -> A;
  amul : A -> A -> A;
  aneg : A -> A
}.

Definition arith_f32 {E : Env} : Arith f32 := {|
  a0 := F32_ZERO; a1 := F32_ONE; a2 := c_2;
  aadd := fadd; asub := fsub; amul := fmul; aneg := fneg |}.

Declare Scope arith_scope.
Delimit Scope arith_scope with A.
Infix "+" := aadd : arith_scope.
Infix "-" := asub : arith_scope.
Infix "*" := amul : arith_scope.
Notation "- x" := (aneg x) : arith_scope.

(** quaternion.rs 52. *)
Record Quat (A : Type) : Type := mkQ { q0 : A; q1 : A; q2 : A; q3 : A }.
Arguments mkQ {A} q0 q1 q2 q3.
Arguments q0 {A} q.
Arguments q1 {A} q.
Arguments q2 {A} q.
Arguments q3 {A} q.

(** quaternion.rs 56, 258. *)
Definition q_identity {A} `{Arith A} : Quat A := mkQ a1 a0 a0 a0.
(** quaternion.rs 107-109. *)
Definition q_conj {A} `{Arith A} (q : Quat A) : Quat A :=
  (mkQ (q0 q) (- q1 q) (- q2 q) (- q3 q))%A.
(** quaternion.rs 112-114. *)
Definition q_dot {A} `{Arith A} (p q : Quat A) : A :=
  (q0 p * q0 q + q1 p * q1 q + q2 p * q2 q + q3 p * q3 q)%A.
(** quaternion.rs 133-135. *)
Definition q_norm {A} `{Arith A} (q : Quat A) : A :=
  (q0 q * q0 q + q1 q * q1 q + q2 q * q2 q + q3 q * q3 q)%A.
(** quaternion.rs 184-190, 303-305, 311-313, 317-319. *)
Definition q_scale {A} `{Arith A} (q : Quat A) (k : A) : Quat A :=
  (mkQ (q0 q * k) (q1 q * k) (q2 q * k) (q3 q * k))%A.
Definition q_mul_scalar {A} `{Arith A} (q : Quat A) (k : A) : Quat A := q_scale q k.
Definition q_scalar_mul {A} `{Arith A} (k : A) (q : Quat A) : Quat A := q_scale q k.
Definition q_mul_assign_scalar {A} `{Arith A} (q : Quat A) (k : A) : Quat A := q_mul_scalar q k.
(** quaternion.rs 241-255. *)
Definition q_add {A} `{Arith A} (p q : Quat A) : Quat A :=
  (mkQ (q0 p + q0 q) (q1 p + q1 q) (q2 p + q2 q) (q3 p + q3 q))%A.
Definition q_add_assign {A} `{Arith A} (p q : Quat A) : Quat A := q_add p q.
(** quaternion.rs 325-339. *)
Definition q_sub {A} `{Arith A} (p q : Quat A) : Quat A :=
  (mkQ (q0 p - q0 q) (q1 p - q1 q) (q2 p - q2 q) (q3 p - q3 q))%A.
Definition q_sub_assign {A} `{Arith A} (p q : Quat A) : Quat A := q_sub p q.
(** quaternion.rs 290-297. *)
Definition q_mul {A} `{Arith A} (p q : Quat A) : Quat A :=
  (mkQ
    (q0 p * q0 q - q1 p * q1 q - q2 p * q2 q - q3 p * q3 q)
    (q0 p * q1 q + q1 p * q0 q + q2 p * q3 q - q3 p * q2 q)
    (q0 p * q2 q - q1 p * q3 q + q2 p * q0 q + q3 p * q1 q)
    (q0 p * q3 q + q1 p * q2 q - q2 p * q1 q + q3 p * q0 q))%A.
(** quaternion.rs 157-181; the vector components are already converted to f32. *)
Definition q_rotate {A} `{Arith A} (q : Quat A) (v : Vector3d A) : Vector3d A :=
  let qw := q0 q in let qx := q1 q in let qy := q2 q in let qz := q3 q in
  (let qwsq := qw * qw in
   let qxsq := qx * qx in
   let qysq := qy * qy in
   let qzsq := qz * qz in
   let x := (qwsq + qxsq - qysq - qzsq) * v3x v
          + (a2 * (qx * qy - qw * qz)) * v3y v
          + (a2 * (qx * qz + qw * qy)) * v3z v in
   let y := (a2 * (qx * qy + qw * qz)) * v3x v
          + (qwsq - qxsq + qysq - qzsq) * v3y v
          + (a2 * (qy * qz - qw * qx)) * v3z v in
   let z := (a2 * (qx * qz - qw * qy)) * v3x v
          + (a2 * (qy * qz + qw * qx)) * v3y v
          + (qwsq - qxsq - qysq + qzsq) * v3z v in
   mkV3 x y z)%A.
(** quaternion.rs 347-349. *)
Definition q_of_vector {A} `{Arith A} (v : Vector3d A) : Quat A :=
  mkQ a0 (v3x v) (v3y v) (v3z v).

(** quaternion.rs 213-235, 263-285. *)
Definition q_new {A} (a b c d : A) : Quat A := mkQ a b c d.
Definition q_to_array {A} (q : Quat A) : list A := [q0 q; q1 q; q2 q; q3 q].
Definition q_to_tuple {A} (q : Quat A) : A * A * A * A := (q0 q, q1 q, q2 q, q3 q).
Definition q_of_tuple {A} (t : A * A * A * A) : Quat A :=
  let '(a, b, c, d) := t in q_new a b c d.
Definition q_of_array {A} (a b c d : A) : Quat A := q_new a b c d.

(** ** Operations with square roots, at f32 only *)

(** quaternion.rs 119-123. *)
Definition Q_inv {E : Env} (q : Quat f32) : res (Quat f32) :=
  let norm := @q_norm _ arith_f32 q in
  if feq norm F32_ZERO then Panic
  else Ok (@q_mul_scalar _ arith_f32 (@q_conj _ arith_f32 q) (F32_inv norm)).

(** quaternion.rs 126-128. *)
Definition Q_magnitude {E : Env} (q : Quat f32) : res f32 := F32_sqrt (@q_norm _ arith_f32 q).

(** quaternion.rs 193-199. *)
Definition Q_normalize {E : Env} (q : Quat f32) : res (Quat f32) :=
  let norm := @q_norm _ arith_f32 q in
  if feq norm F32_ZERO then Panic
  else n <- F32_invsqrt norm ;; Ok (@q_scale _ arith_f32 q n).

(** quaternion.rs 139-153.  [into] is [Into<f32>] of the component type. *)
Definition Q_axis_angle {E : Env} {C} (into : C -> f32) (v : Vector3d C) (theta : C) : Quat f32 :=
  let half_theta := fmul (into theta) c_0_5 in
  let s := F32_sin half_theta in
  mkQ (F32_cos half_theta)
      (fmul (into (v3x v)) s) (fmul (into (v3y v)) s) (fmul (into (v3z v)) s).

(** quaternion.rs 157-181, with the component conversion. *)
Definition Q_rotate {E : Env} {C} (into : C -> f32) (q : Quat f32) (v : Vector3d C) : Vector3d f32 :=
  @q_rotate _ arith_f32 q (v3_into_f32 into v).
(** quaternion.rs 360-362. *)
Definition Q_mul_vector {E : Env} {C} (into : C -> f32) (q : Quat f32) (v : Vector3d C)
  : Vector3d f32 := Q_rotate into q v.

(** quaternion.rs 202-210. *)
Definition Q_to_euler {E : Env} (q : Quat f32) : res (f32 * f32 * f32) :=
  let r := F32_atan2
    (fmul c_2 (fadd (fmul (q0 q) (q1 q)) (fmul (q2 q) (q3 q))))
    (fsub F32_ONE (fmul c_2 (fadd (fmul (q1 q) (q1 q)) (fmul (q2 q) (q2 q))))) in
  p <- F32_asin (fmul c_2 (fsub (fmul (q0 q) (q2 q)) (fmul (q1 q) (q3 q)))) ;;
  let y := F32_atan2
    (fmul c_2 (fadd (fmul (q0 q) (q3 q)) (fmul (q1 q) (q2 q))))
    (fsub F32_ONE (fmul c_2 (fadd (fmul (q2 q) (q2 q)) (fmul (q3 q) (q3 q))))) in
  Ok (r, p, y).

(** [1e-6], quaternion.rs 73. *)
Definition c_1em6 : f32 := from_bits 0x358637BD.

(** quaternion.rs 65-104. *)
Definition Q_from_two_vectors {E : Env} {C} `{Component C} (into : C -> f32)
    (u v : Vector3d C) : res (Quat f32) :=
  uu <- v3_dot u u ;;
  vv <- v3_dot v v ;;
  n_uv <- F32_sqrt (fmul (into uu) (into vv)) ;;
  uv <- v3_dot u v ;;
  let realpart := fadd n_uv (into uv) in
  rw <- (if flt realpart (fmul c_1em6 n_uv) then
           if fgt (F32_abs (into (v3x u))) (F32_abs (into (v3z u))) then
             Ok (F32_ZERO, mkV3 (fneg (into (v3y u))) (into (v3x u)) F32_ZERO)
           else
             Ok (F32_ZERO, mkV3 F32_ZERO (fneg (into (v3z u))) (into (v3y u)))
         else
           w <- @v3_mul _ comp_f32 (v3_into_f32 into u) (v3_into_f32 into v) ;;
           Ok (realpart, w)) ;;
  let '(realpart, w) := rw in
  let q := mkQ realpart (v3x w) (v3y w) (v3z w) in
  n <- F32_invsqrt (@q_norm _ arith_f32 q) ;;
  Ok (@q_mul_scalar _ arith_f32 q n).
