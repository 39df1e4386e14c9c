(** * Model of the derived [PartialEq] of the vectors and of [Quaternion] *)

From Coq Require Import ZArith Bool.
From Verif Require Import Base Float Vector Quaternion.
Open Scope Z_scope.

(** vector2d.rs 43, vector3d.rs 42, quaternion.rs 51: [#[derive(PartialEq)]] compares field by field,
    in order, stopping at the first difference (the comparison has no effects, so [&&]).  [ceq] is [==] of
    the component type: [Z.eqb] for the integer types, [feq] for [f32] and [F32] (float.rs 67). *)
Definition v2_eq {C} (ceq : C -> C -> bool) (v w : Vector2d C) : bool :=
  ceq (v2x v) (v2x w) && ceq (v2y v) (v2y w).
Definition v3_eq {C} (ceq : C -> C -> bool) (v w : Vector3d C) : bool :=
  ceq (v3x v) (v3x w) && ceq (v3y v) (v3y w) && ceq (v3z v) (v3z w).
Definition q_eq (p q : Quat f32) : bool :=
  feq (q0 p) (q0 q) && feq (q1 p) (q1 q) && feq (q2 p) (q2 q) && feq (q3 p) (q3 q).
(** [!=] is the default method of [PartialEq]. *)
Definition v2_ne {C} (ceq : C -> C -> bool) (v w : Vector2d C) : bool := negb (v2_eq ceq v w).
Definition v3_ne {C} (ceq : C -> C -> bool) (v w : Vector3d C) : bool := negb (v3_eq ceq v w).
Definition q_ne (p q : Quat f32) : bool := negb (q_eq p q).
