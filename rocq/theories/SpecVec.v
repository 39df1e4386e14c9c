(** * Notions for the statements about vectors of floats *)

From Coq Require Import ZArith Reals List.
From Flocq Require Import Core IEEE754.Binary IEEE754.Bits.
From Verif Require Import Base Spec.
Import ListNotations.
Open Scope Z_scope.

(** A finite float of absolute value at most 2^k. *)
Definition within (k : Z) (x : f32) : Prop := fin x /\ (Rabs (val x) <= bpow radix2 k)%R.

(** The exact Euclidean norm of a list of floats. *)
Definition rnorm (l : list f32) : R := sqrt (rsumsq l).
