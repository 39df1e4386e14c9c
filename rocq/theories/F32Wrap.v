(** * Model of the operators, comparisons and constants of [F32] (src/float.rs)

    Float.v identifies [F32] with [f32]; here the newtype is kept apart, so that
    the impls on [F32], on [f32] and mixed are separate functions.  A compound
    assignment returns the new value of its left operand. *)

From Coq Require Import ZArith Bool List.
From Flocq Require Import Core IEEE754.Binary IEEE754.Bits.
From Verif Require Import Base Float.
Import ListNotations.
Open Scope Z_scope.

(** float.rs 68. *)
Record F32 : Type := mkF32 { f32_0 : f32 }.

(** float.rs 341-353. *)
Definition F32_from_f32 (n : f32) : F32 := mkF32 n.
Definition f32_from_F32 (n : F32) : f32 := f32_0 n.

Section Ops.
Context {E : Env}.

(** float.rs 238-284. *)
Definition F32_add (a b : F32) : F32 := mkF32 (fadd (f32_0 a) (f32_0 b)).
Definition F32_add_f32 (a : F32) (b : f32) : F32 := mkF32 (fadd (f32_0 a) b).
Definition f32_add_F32 (a : f32) (b : F32) : F32 := mkF32 (fadd a (f32_0 b)).
Definition F32_add_assign (a b : F32) : F32 := mkF32 (fadd (f32_0 a) (f32_0 b)).
Definition F32_add_assign_f32 (a : F32) (b : f32) : F32 := mkF32 (fadd (f32_0 a) b).
Definition f32_add_assign_F32 (a : f32) (b : F32) : f32 := fadd a (f32_0 b).

(** float.rs 293-339. *)
Definition F32_div (a b : F32) : F32 := mkF32 (fdiv (f32_0 a) (f32_0 b)).
Definition F32_div_f32 (a : F32) (b : f32) : F32 := mkF32 (fdiv (f32_0 a) b).
Definition f32_div_F32 (a : f32) (b : F32) : F32 := mkF32 (fdiv a (f32_0 b)).
Definition F32_div_assign (a b : F32) : F32 := mkF32 (fdiv (f32_0 a) (f32_0 b)).
Definition F32_div_assign_f32 (a : F32) (b : f32) : F32 := mkF32 (fdiv (f32_0 a) b).
Definition f32_div_assign_F32 (a : f32) (b : F32) : f32 := fdiv a (f32_0 b).

(** float.rs 399-445. *)
Definition F32_mul (a b : F32) : F32 := mkF32 (fmul (f32_0 a) (f32_0 b)).
Definition F32_mul_f32 (a : F32) (b : f32) : F32 := mkF32 (fmul (f32_0 a) b).
Definition f32_mul_F32 (a : f32) (b : F32) : F32 := mkF32 (fmul a (f32_0 b)).
Definition F32_mul_assign (a b : F32) : F32 := mkF32 (fmul (f32_0 a) (f32_0 b)).
Definition F32_mul_assign_f32 (a : F32) (b : f32) : F32 := mkF32 (fmul (f32_0 a) b).
Definition f32_mul_assign_F32 (a : f32) (b : F32) : f32 := fmul a (f32_0 b).

(** float.rs 447-454. *)
Definition F32_neg (a : F32) : F32 := mkF32 (fneg (f32_0 a)).

(** float.rs 490-529 (there is no [RemAssign<F32> for f32]). *)
Definition F32_rem (a b : F32) : F32 := mkF32 (frem (f32_0 a) (f32_0 b)).
Definition F32_rem_f32 (a : F32) (b : f32) : F32 := mkF32 (frem (f32_0 a) b).
Definition f32_rem_F32 (a : f32) (b : F32) : F32 := mkF32 (frem a (f32_0 b)).
Definition F32_rem_assign (a b : F32) : F32 := mkF32 (frem (f32_0 a) (f32_0 b)).
Definition F32_rem_assign_f32 (a : F32) (b : f32) : F32 := mkF32 (frem (f32_0 a) b).

(** float.rs 531-577. *)
Definition F32_sub (a b : F32) : F32 := mkF32 (fsub (f32_0 a) (f32_0 b)).
Definition F32_sub_f32 (a : F32) (b : f32) : F32 := mkF32 (fsub (f32_0 a) b).
Definition f32_sub_F32 (a : f32) (b : F32) : F32 := mkF32 (fsub a (f32_0 b)).
Definition F32_sub_assign (a b : F32) : F32 := mkF32 (fsub (f32_0 a) (f32_0 b)).
Definition F32_sub_assign_f32 (a : F32) (b : f32) : F32 := mkF32 (fsub (f32_0 a) b).
Definition f32_sub_assign_F32 (a : f32) (b : F32) : f32 := fsub a (f32_0 b).

(** float.rs 480-488, 579-587. *)
Definition F32_iter_product (l : list F32) : F32 := mkF32 (F32_product (map f32_from_F32 l)).
Definition F32_iter_sum (l : list F32) : F32 := mkF32 (F32_sum (map f32_from_F32 l)).

(** float.rs 115. *)
Definition F32_NAN : F32 := mkF32 f32_NAN.

End Ops.

(** ** Comparisons *)

(** [f32::partial_cmp]. *)
Definition f32_partial_cmp (a b : f32) : option comparison := Bcompare 24 128 a b.

(** float.rs 67 (derived), 456-466. *)
Definition F32_eq (a b : F32) : bool := feq (f32_0 a) (f32_0 b).
Definition F32_eq_f32 (a : F32) (b : f32) : bool := feq (f32_0 a) b.
Definition f32_eq_F32 (a : f32) (b : F32) : bool := feq a (f32_0 b).

(** float.rs 67 (derived), 468-478. *)
Definition F32_partial_cmp (a b : F32) : option comparison := f32_partial_cmp (f32_0 a) (f32_0 b).
Definition F32_partial_cmp_f32 (a : F32) (b : f32) : option comparison := f32_partial_cmp (f32_0 a) b.
Definition f32_partial_cmp_F32 (a : f32) (b : F32) : option comparison := f32_partial_cmp a (f32_0 b).

(** ** Constants (float.rs 78-112, the values of [core::f32]) *)
Definition F32_RADIX : Z := 2.
Definition F32_MANTISSA_DIGITS : Z := 24.
Definition F32_DIGITS : Z := 6.
Definition F32_MIN : f32 := from_bits 0xFF7FFFFF.
Definition F32_MIN_POSITIVE : f32 := from_bits 0x00800000.
Definition F32_MAX : f32 := from_bits 0x7F7FFFFF.
Definition F32_MIN_EXP : Z := -125.
Definition F32_MAX_EXP : Z := 128.
Definition F32_MIN_10_EXP : Z := -37.
Definition F32_MAX_10_EXP : Z := 38.

(** float.rs 67: [Default]. *)
Definition F32_default : F32 := mkF32 (f32_zero false).

(** ** Classification (float.rs 125-154) *)
Definition F32_is_nan (a : F32) : bool := is_nan (f32_0 a).
Definition F32_is_infinite (a : F32) : bool := is_infinite (f32_0 a).
Definition F32_is_finite (a : F32) : bool := is_finite (f32_0 a).
Definition F32_is_sign_positive (a : F32) : bool := negb (sign_bit (f32_0 a)).
Definition F32_is_sign_negative (a : F32) : bool := sign_bit (f32_0 a).

(** ** num-traits (float.rs 598-640, without [from_str_radix]) *)
Definition F32_zero : F32 := mkF32 F32_ZERO.
Definition F32_is_zero (a : F32) : bool := F32_eq (mkF32 F32_ZERO) a.
Definition F32_one : F32 := mkF32 F32_ONE.
Definition F32_is_one (a : F32) : bool := F32_eq (mkF32 F32_ONE) a.
Definition F32_trait_inv {E : Env} (a : F32) : F32 := mkF32 (F32_inv (f32_0 a)).
