(** * More vocabulary for statements: exact sums of squared deviations *)

From Coq Require Import ZArith Reals List.
From Flocq Require Import Core.
From Verif Require Import Base Spec.
Open Scope R_scope.

(** Sum of (a - c)^2 over a list of floats. *)
Definition rdev (c : R) (l : list f32) : R := fold_right (fun a r => (val a - c) * (val a - c) + r) 0 l.
(** Exact mean and sample variance. *)
Definition rmean (l : list f32) : R := rsum l / INR (length l).
Definition rvariance (l : list f32) : R := rdev (rmean l) l / (INR (length l) - 1).

(** [y] is the negative of [x]: opposite values, opposite infinities, or both NaN. *)
Definition negates (x y : f32) : Prop :=
  (nan x /\ nan y) \/ (fin x /\ fin y /\ val y = - val x) \/
  (exists s, x = f32_inf s /\ y = f32_inf (negb s)).

(** [y] is 2^k times [x], with the same sign bit. *)
Definition scaled (k : Z) (x y : f32) : Prop :=
  fin x /\ fin y /\ val y = bpow radix2 k * val x /\ sign_bit y = sign_bit x.

(** Zero or of magnitude between 2^-b and 2^b. *)
Definition within (b : Z) (x : f32) : Prop :=
  fin x /\ (val x = 0 \/ bpow radix2 (- b) <= Rabs (val x) <= bpow radix2 b).
