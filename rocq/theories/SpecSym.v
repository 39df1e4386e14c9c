(** * Vocabulary: negated vectors and quaternions, componentwise relations

    Only the record types come from the model. *)

From Verif Require Import Base Spec Float Vector Quaternion.

Definition qneg (q : Quat f32) : Quat f32 := mkQ (fneg (q0 q)) (fneg (q1 q)) (fneg (q2 q)) (fneg (q3 q)).
Definition vneg (v : Vector3d f32) : Vector3d f32 := mkV3 (fneg (v3x v)) (fneg (v3y v)) (fneg (v3z v)).

Definition qfin (q : Quat f32) : Prop := fin (q0 q) /\ fin (q1 q) /\ fin (q2 q) /\ fin (q3 q).

(** [R] holds between corresponding components. *)
Definition qrel (R : f32 -> f32 -> Prop) (p q : Quat f32) : Prop :=
  R (q0 p) (q0 q) /\ R (q1 p) (q1 q) /\ R (q2 p) (q2 q) /\ R (q3 p) (q3 q).
Definition vrel (R : f32 -> f32 -> Prop) (v w : Vector3d f32) : Prop :=
  R (v3x v) (v3x w) /\ R (v3y v) (v3y w) /\ R (v3z v) (v3z w).
(** Same scalar part, [R] between the vector parts. *)
Definition crel (R : f32 -> f32 -> Prop) (p q : Quat f32) : Prop :=
  same (q0 p) (q0 q) /\ R (q1 p) (q1 q) /\ R (q2 p) (q2 q) /\ R (q3 p) (q3 q).
