(** * Specification vocabulary for arithmetic, order, sums and products *)

From Coq Require Import ZArith Reals Bool List.
From Flocq Require Import Core IEEE754.Binary IEEE754.Bits.
From Verif Require Import Base Spec.
Open Scope Z_scope.

(** [r] is the IEEE-754 result for the exact value [z]: the nearest float, or an
    infinity when that is out of range. *)
Definition ieee (r : f32) (z : R) : Prop :=
  ((Rabs (rnd z) < bpow radix2 128)%R -> fin r /\ val r = rnd z) /\
  ((bpow radix2 128 <= Rabs (rnd z))%R -> r = f32_inf (Rlt_bool z 0)).

(** Floats on the real line, with the infinities just outside. *)
Definition key (x : f32) : R := if is_infinite x then (if sign_bit x then - bpow radix2 128 else bpow radix2 128)%R else val x.

(** The exact sum of absolute values, and the exact product. *)
Definition rabssum (l : list f32) : R := fold_right (fun a r => Rabs (val a) + r)%R 0%R l.
Definition rprod (l : list f32) : R := fold_right (fun a r => val a * r)%R 1%R l.
