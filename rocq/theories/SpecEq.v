(** * Vocabulary: equality of numbers

    Only the record types come from the model. *)

From Coq Require Import Reals.
From Flocq Require Import Core IEEE754.Binary.
From Verif Require Import Base Spec Float Vector Quaternion.

(** Equal extended real numbers: both finite with the same value, or the same infinity. *)
Definition num_eq (a b : f32) : Prop :=
  (fin a /\ fin b /\ val a = val b) \/ exists s, a = B754_infinity s /\ b = B754_infinity s.
(** Equal numbers, or both NaN. *)
Definition alike (a b : f32) : Prop := num_eq a b \/ (nan a /\ nan b).

Definition v2rel (R : f32 -> f32 -> Prop) (v w : Vector2d f32) : Prop := R (v2x v) (v2x w) /\ R (v2y v) (v2y w).
Definition v3rel (R : f32 -> f32 -> Prop) (v w : Vector3d f32) : Prop := R (v3x v) (v3x w) /\ R (v3y v) (v3y w) /\ R (v3z v) (v3z w).
Definition q4rel (R : f32 -> f32 -> Prop) (p q : Quat f32) : Prop :=
  R (q0 p) (q0 q) /\ R (q1 p) (q1 q) /\ R (q2 p) (q2 q) /\ R (q3 p) (q3 q).
(** Both return, with related results. *)
Definition both {A} (R : A -> A -> Prop) (r s : res A) : Prop := exists a b, r = Ok a /\ s = Ok b /\ R a b.
