(** * Rust primitives used by micromath

    Results with panics, machine integers, and [f32] with its primitive
    operations.  This file models the *language*, not the crate: the only
    citations are to places where the crate relies on the primitive. *)

From Coq Require Import ZArith Bool List.
From Flocq Require Import Core IEEE754.BinarySingleNaN IEEE754.Binary IEEE754.Bits.
Import ListNotations.
Open Scope Z_scope.

Arguments B754_zero {prec emax} s.
Arguments B754_infinity {prec emax} s.
Arguments B754_nan {prec emax} s pl _.
Arguments B754_finite {prec emax} s m e _.

(** ** Results *)

(** Outcome of running a Rust expression.  [NoFuel] is not a Rust outcome: it is
    what the model of a loop returns when it is cut off after a given number of
    iterations (only [powi], src/float/powi.rs 55-67). *)
Inductive res (A : Type) : Type :=
| Ok (a : A)
| Panic
| NoFuel.
Arguments Ok {A} a.
Arguments Panic {A}.
Arguments NoFuel {A}.

Definition bind {A B} (x : res A) (f : A -> res B) : res B :=
  match x with Ok a => f a | Panic => Panic | NoFuel => NoFuel end.

Notation "x <- e1 ;; e2" := (bind e1 (fun x => e2))
  (at level 61, e1 at next level, right associativity).

(** ** [f32] *)

(** IEEE-754 binary32, NaN payloads included. *)
Definition f32 : Type := binary32.

Definition is_nan (x : f32) : bool := Binary.is_nan 24 128 x.
Definition is_finite (x : f32) : bool := Binary.is_finite 24 128 x.
Definition sign_bit (x : f32) : bool := Bsign 24 128 x.
Definition is_infinite (x : f32) : bool :=
  match x with B754_infinity _ => true | _ => false end.

(** A NaN value. *)
Definition nan_f32 : Type := { x : f32 | is_nan x = true }.

(** ** Environment

    What the Rust reference leaves open, plus the build profile.  Every
    theorem quantifies over all environments.
    - [overflow_checks], [debug_assertions]: Cargo profile settings;
    - [nan_*]: which NaN an arithmetic operation returns;
    - [nan_const]: the payload of [f32::NAN] (float.rs 115);
    - [sum_start]: the sign of the zero from which [f32::sum] starts
      ([true] for -0.0, recent standard libraries; [false] for 0.0). *)
Class Env : Type := {
  overflow_checks : bool;
  debug_assertions : bool;
  nan_add : f32 -> f32 -> nan_f32;
  nan_sub : f32 -> f32 -> nan_f32;
  nan_mul : f32 -> f32 -> nan_f32;
  nan_div : f32 -> f32 -> nan_f32;
  nan_rem : f32 -> f32 -> nan_f32;
  nan_const : nan_f32;
  sum_start : bool
}.

(** [f32::to_bits] / [f32::from_bits]. *)
Definition to_bits (x : f32) : Z := bits_of_b32 x.
Definition from_bits (b : Z) : f32 := b32_of_bits b.
Arguments to_bits x : simpl never.
Arguments from_bits b : simpl never.

#[global] Instance prec24 : FLX.Prec_gt_0 24 := eq_refl.
#[global] Instance emax128 : Prec_lt_emax 24 128 := eq_refl.

(** [+ - * /] on [f32]: round to nearest, ties to even. *)
Definition fadd {E : Env} (x y : f32) : f32 := Bplus 24 128 _ _ nan_add mode_NE x y.
Definition fsub {E : Env} (x y : f32) : f32 := Bminus 24 128 _ _ nan_sub mode_NE x y.
Definition fmul {E : Env} (x y : f32) : f32 := Bmult 24 128 _ _ nan_mul mode_NE x y.
Definition fdiv {E : Env} (x y : f32) : f32 := Bdiv 24 128 _ _ nan_div mode_NE x y.

(** Unary minus flips the sign bit, also of a NaN. *)
Definition fneg (x : f32) : f32 :=
  match x with
  | B754_nan s pl H => B754_nan (negb s) pl H
  | B754_infinity s => B754_infinity (negb s)
  | B754_zero s => B754_zero (negb s)
  | B754_finite s m e H => B754_finite (negb s) m e H
  end.

(** [%] on [f32]: C's [fmod].  The remainder of the significands over a common
    exponent is representable; the sign is that of the dividend. *)
Definition frem {E : Env} (x y : f32) : f32 :=
  match x, y with
  | B754_nan _ _ _, _ | _, B754_nan _ _ _ => proj1_sig (nan_rem x y)
  | B754_infinity _, _ => proj1_sig (nan_rem x y)
  | _, B754_zero _ => proj1_sig (nan_rem x y)
  | B754_zero _, _ => x
  | B754_finite _ _ _ _, B754_infinity _ => x
  | B754_finite sx mx ex _, B754_finite _ my ey _ =>
      let e := Z.min ex ey in
      let a := Zpos mx * 2 ^ (ex - e) in
      let b := Zpos my * 2 ^ (ey - e) in
      binary_normalize 24 128 _ _ mode_NE (cond_Zopp sx (a mod b)) e sx
  end.

(** Comparisons: all false on NaN except [!=]; zeros compare equal. *)
Definition feq (x y : f32) : bool :=
  match Bcompare 24 128 x y with Some Eq => true | _ => false end.
Definition flt (x y : f32) : bool :=
  match Bcompare 24 128 x y with Some Lt => true | _ => false end.
Definition fle (x y : f32) : bool :=
  match Bcompare 24 128 x y with Some Lt | Some Eq => true | _ => false end.
Definition fgt (x y : f32) : bool := flt y x.
Definition fge (x y : f32) : bool := fle y x.

(** [f32::NAN]. *)
Definition f32_NAN {E : Env} : f32 := proj1_sig nan_const.

(** Signed zero and infinity. *)
Definition f32_inf (s : bool) : f32 := B754_infinity s.
Definition f32_zero (s : bool) : f32 := B754_zero s.

(** Integer to float conversion ([as f32], [Into<f32>]): nearest even. *)
Definition f32_of_Z (n : Z) : f32 := binary_normalize 24 128 _ _ mode_NE n 0 false.

(** ** Machine integers *)

(** An integer type: signedness and width. *)
Record ity : Type := mkity { ity_signed : bool; ity_bits : Z }.
Definition i8 := mkity true 8.
Definition i16 := mkity true 16.
Definition i32 := mkity true 32.
Definition u8 := mkity false 8.
Definition u16 := mkity false 16.
Definition u32 := mkity false 32.

Definition ity_min (t : ity) : Z := if ity_signed t then - 2 ^ (ity_bits t - 1) else 0.
Definition ity_max (t : ity) : Z :=
  if ity_signed t then 2 ^ (ity_bits t - 1) - 1 else 2 ^ (ity_bits t) - 1.
Definition in_range (t : ity) (z : Z) : bool := (ity_min t <=? z) && (z <=? ity_max t).

(** Reduction modulo 2^bits into the range of the type. *)
Definition wrap (t : ity) (z : Z) : Z :=
  (z - ity_min t) mod 2 ^ (ity_bits t) + ity_min t.

(** Result of [+ - *] and unary minus with mathematical value [z]: panics on
    overflow in checked builds, wraps otherwise. *)
Definition arith {E : Env} (t : ity) (z : Z) : res Z :=
  if in_range t z then Ok z else if overflow_checks then Panic else Ok (wrap t z).

(** [/]: division by zero and MIN / -1 panic in every build. *)
Definition int_div (t : ity) (a b : Z) : res Z :=
  if b =? 0 then Panic
  else if in_range t (Z.quot a b) then Ok (Z.quot a b) else Panic.

(** [i32::saturating_add] and the saturating cast. *)
Definition clamp (t : ity) (z : Z) : Z := Z.max (ity_min t) (Z.min (ity_max t) z).

(** [x as i32] for [x : f32]: truncate, saturate, NaN to 0. *)
Definition to_i32 (x : f32) : Z :=
  match x with
  | B754_nan _ _ _ => 0
  | B754_infinity s => if s then ity_min i32 else ity_max i32
  | _ => clamp i32 (Btrunc 24 128 x)
  end.

(** [!b] on u32. *)
Definition not32 (b : Z) : Z := Z.lxor b 0xFFFFFFFF.

(** [overflowing_shl(n).0] / [overflowing_shr(n).0] on u32: the shift amount is
    taken modulo 32. *)
Definition shl32 (b n : Z) : Z := Z.shiftl b (n mod 32) mod 2 ^ 32.
Definition shr32 (b n : Z) : Z := Z.shiftr b (n mod 32).

(** [u32::leading_zeros]. *)
Definition lz32 (b : Z) : Z := if b =? 0 then 32 else 31 - Z.log2 b.

(** [as u32] on an i32. *)
Definition as_u32 (z : Z) : Z := z mod 2 ^ 32.
