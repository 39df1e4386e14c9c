(** * Notions for the statements about the trigonometric functions *)

From Coq Require Import ZArith Reals.
From Flocq Require Import Core IEEE754.Binary IEEE754.Bits.
From Verif Require Import Base Spec.
Open Scope Z_scope.

(** The f32 value of PI / 2, that is 1.57079637. *)
Definition half_pi : R := (13176795 / 8388608)%R.

(** How many turns [x] makes: [x] times 10680707 / 2^26, the f32 value of 1 / (2 PI), rounded to the
    nearest f32. *)
Definition turns (x : f32) : R := round radix2 (FLT_exp (-149) 24) ZnearestE (val x * (10680707 / 67108864)).
