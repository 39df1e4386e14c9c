(** * Model of src/f32ext.rs

    One constructor per method of the trait [F32Ext] (f32ext.rs 7-112, except
    [sin_cos], which returns a pair), and the forwarding of
    [impl F32Ext for f32] (f32ext.rs 114-279). *)

From Coq Require Import ZArith Bool List.
From Verif Require Import Base Float.
Open Scope Z_scope.

Inductive ext_call : Type :=
| X_abs (x : f32) | X_acos (x : f32) | X_asin (x : f32) | X_atan (x : f32) | X_atan_norm (x : f32)
| X_atan2 (x other : f32) | X_atan2_norm (x other : f32)
| X_ceil (x : f32) | X_copysign (x sign : f32) | X_cos (x : f32) | X_div_euclid (x other : f32)
| X_exp (x : f32) | X_floor (x : f32) | X_fract (x : f32) | X_hypot (x other : f32)
| X_inv (x : f32) | X_invsqrt (x : f32) | X_ln (x : f32) | X_log (x base : f32)
| X_log2 (x : f32) | X_log10 (x : f32) | X_mul_add (x a b : f32)
| X_powf (x n : f32) | X_powi (x : f32) (n : Z) | X_recip (x : f32) | X_rem_euclid (x other : f32)
| X_round (x : f32) | X_signum (x : f32) | X_sin (x : f32) | X_sqrt (x : f32) | X_tan (x : f32) | X_trunc (x : f32).

(** [fuel] bounds the loop of powi. *)
Definition ext_run {E : Env} (fuel : nat) (c : ext_call) : res f32 :=
  match c with
  | X_abs x => Ok (F32_abs x)
  | X_acos x => F32_acos x
  | X_asin x => F32_asin x
  | X_atan x => Ok (F32_atan x)
  | X_atan_norm x => Ok (F32_atan_norm x)
  | X_atan2 x other => Ok (F32_atan2 x other)
  | X_atan2_norm x other => Ok (F32_atan2_norm x other)
  | X_ceil x => Ok (F32_ceil x)
  | X_copysign x sign => Ok (F32_copysign x sign)
  | X_cos x => Ok (F32_cos x)
  | X_div_euclid x other => Ok (F32_div_euclid x other)
  | X_exp x => F32_exp x
  | X_floor x => Ok (F32_floor x)
  | X_fract x => F32_fract x
  | X_hypot x other => F32_hypot x other
  | X_inv x => Ok (F32_inv x)
  | X_invsqrt x => F32_invsqrt x
  | X_ln x => Ok (F32_ln x)
  | X_log x base => Ok (F32_log x base)
  | X_log2 x => Ok (F32_log2 x)
  | X_log10 x => Ok (F32_log10 x)
  | X_mul_add x a b => Ok (F32_mul_add x a b)
  | X_powf x n => F32_powf x n
  | X_powi x n => F32_powi fuel x n
  | X_recip x => Ok (F32_recip x)
  | X_rem_euclid x other => Ok (F32_rem_euclid x other)
  | X_round x => Ok (F32_round x)
  | X_signum x => Ok (F32_signum x)
  | X_sin x => Ok (F32_sin x)
  | X_sqrt x => F32_sqrt x
  | X_tan x => Ok (F32_tan x)
  | X_trunc x => Ok (F32_trunc x)
  end.

(** f32ext.rs [sin_cos]. *)
Definition ext_sin_cos {E : Env} (x : f32) : f32 * f32 := (F32_sin x, F32_cos x).
