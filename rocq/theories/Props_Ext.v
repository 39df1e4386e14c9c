(** * C85, C86: panics, termination and NaN over the whole float API (f32ext.rs) *)

From Coq Require Import ZArith Reals Bool List Lia Lra.
From Flocq Require Import Core IEEE754.Binary IEEE754.Bits.
From Verif Require Import Base Spec Float F32Ext TestEnv P_RoundEdge P_Ext.
Open Scope Z_scope.

(** ** C85: which calls panic *)

Theorem C85_ext_panic_iff : forall {E : Env} fuel c,
  match c with X_powi _ n => - 2 ^ 31 <= n <= 2 ^ 31 - 1 | _ => True end ->
  (ext_run fuel c = Panic <->
   match c with
   | X_asin x => overflow_checks = true /\ 0xBE6EB50D < to_bits (fsub F32_ONE (fmul x x))
   | X_invsqrt x => overflow_checks = true /\ 0xBE6EB50D < to_bits x
   | X_exp x => debug_assertions = true /\ fin x /\ (88.72283935546875 <= val x <= 89.41597747802734375)%R
   | X_powf x n => debug_assertions = true /\ (fge x F32_ZERO = true \/ is_integer n = true) /\
       let p := fmul n (F32_ln (if fge x F32_ZERO then x else without_sign x)) in
       fin p /\ (88.72283935546875 <= val p <= 89.41597747802734375)%R
   | X_powi x n => overflow_checks = true /\ (n = - 2 ^ 31 \/
       (n <> 0 /\ ~ (feq x F32_ZERO = true /\ 0 < n) /\ fle c_0_5 (F32_abs x) && flt (F32_abs x) c_2 = false /\
        ~ (- 2 ^ 31 <= extract_exponent_value x * n <= 2 ^ 31 - 1)))
   | _ => False
   end).
Proof. exact @ext_panic. Qed.
Print Assumptions C85_ext_panic_iff.

Theorem C85_ext_total : forall {E : Env} fuel c,
  match c with X_asin _ | X_invsqrt _ | X_exp _ | X_powf _ _ | X_powi _ _ => False | _ => True end ->
  exists r, ext_run fuel c = Ok r.
Proof. exact @ext_safe. Qed.
Print Assumptions C85_ext_total.

Theorem C85_ext_terminates : forall {E : Env} fuel c,
  match c with X_powi _ n => - 2 ^ 31 < n <= 2 ^ 31 - 1 /\ (31 <= fuel)%nat | _ => True end ->
  ext_run fuel c = Panic \/ exists r, ext_run fuel c = Ok r.
Proof. exact @ext_terminates. Qed.
Print Assumptions C85_ext_terminates.

Example C85_exp_debug : @ext_run env_debug 0 (X_exp (from_bits 0x42B20000 (* 89.0 *))) = Panic.
Proof. vm_compute. reflexivity. Qed.

Example C85_exp_release : match @ext_run env_release 0 (X_exp (from_bits 0x42B20000)) with Ok _ => True | _ => False end.
Proof. vm_compute. exact I. Qed.

Example C85_invsqrt_minus_one :
  @ext_run env_debug 0 (X_invsqrt (from_bits 0xBF800000 (* -1.0 *))) = Panic /\
  match @ext_run env_debug 0 (X_sqrt (from_bits 0xBF800000)) with Ok r => is_nan r = true | _ => False end.
Proof. split; vm_compute; reflexivity. Qed.

(** ** C86: NaN *)

Theorem C86_ext_nan : forall {E : Env} fuel c,
  match c with
  | X_abs x | X_acos x | X_atan x | X_atan_norm x | X_cos x | X_inv x | X_ln x | X_log2 x | X_log10 x | X_recip x
  | X_signum x | X_sin x | X_sqrt x | X_tan x | X_copysign x _ => nan x
  | X_atan2 x y | X_atan2_norm x y | X_hypot x y | X_log x y | X_rem_euclid x y => nan x \/ nan y
  | X_mul_add x a b => nan x \/ nan a \/ nan b
  | _ => False
  end -> exists z, ext_run fuel c = Ok z /\ nan z.
Proof. exact @ext_nan. Qed.
Print Assumptions C86_ext_nan.

Theorem C86_ext_nan_others : forall {E : Env} x, nan x ->
  F32_floor x = f32_zero false /\ F32_round x = f32_zero false /\ F32_ceil x = f32_zero true /\
  F32_trunc x = f32_inf (sign_bit x) /\
  (F32_exp x = Ok F32_INFINITY \/ F32_exp x = Ok F32_ZERO) /\
  (forall r, F32_asin x = Ok r -> nan r) /\
  (exists z, F32_fract x = Ok z /\ fin z /\ sign_bit z = sign_bit x /\
     (Rabs (val z) = IZR (to_bits x mod 2 ^ 23) / 8388608)%R /\ (0 < Rabs (val z) < 1)%R).
Proof. exact @nan_others. Qed.
Print Assumptions C86_ext_nan_others.

Theorem C86_div_euclid_nan : forall {E : Env} x y, nan x \/ nan y -> exists s, F32_div_euclid x y = f32_inf s.
Proof. exact @div_euclid_nan. Qed.
Print Assumptions C86_div_euclid_nan.

Theorem C86_invsqrt_nan : forall {E : Env} x, nan x ->
  (sign_bit x = false -> exists z, F32_invsqrt x = Ok z /\ fin z /\ (0 < val z < 0.0000000000000000001)%R) /\
  (sign_bit x = true -> (overflow_checks = true -> F32_invsqrt x = Panic) /\
     (overflow_checks = false -> exists z, F32_invsqrt x = Ok z /\ fin z /\ (val z < -10000000000000000000)%R)).
Proof. exact @invsqrt_nan. Qed.
Print Assumptions C86_invsqrt_nan.

(** fract of the usual quiet NaN is one half. *)
Example C86_fract_nan : match @ext_run env_debug 0 (X_fract (from_bits 0x7FC00000)) with Ok r => to_bits r = 0x3F000000 | _ => False end.
Proof. vm_compute. reflexivity. Qed.

Example C86_tan_nan : match @ext_run env_debug 0 (X_tan (from_bits 0x7FC00000)) with Ok r => is_nan r = true | _ => False end.
Proof. vm_compute. reflexivity. Qed.

Example C86_trunc_nan : to_bits (F32_trunc (from_bits 0xFFC00001)) = 0xFF800000.
Proof. vm_compute. reflexivity. Qed.

(** ** C101: each trait method on f32 is the F32 method of the same name, arguments in order *)

Theorem C101_ext_forwards : forall {E : Env} fuel x y z n,
  ext_run fuel (X_abs x) = Ok (F32_abs x) /\
  ext_run fuel (X_acos x) = F32_acos x /\
  ext_run fuel (X_asin x) = F32_asin x /\
  ext_run fuel (X_atan x) = Ok (F32_atan x) /\
  ext_run fuel (X_atan_norm x) = Ok (F32_atan_norm x) /\
  ext_run fuel (X_atan2 x y) = Ok (F32_atan2 x y) /\
  ext_run fuel (X_atan2_norm x y) = Ok (F32_atan2_norm x y) /\
  ext_run fuel (X_ceil x) = Ok (F32_ceil x) /\
  ext_run fuel (X_copysign x y) = Ok (F32_copysign x y) /\
  ext_run fuel (X_cos x) = Ok (F32_cos x) /\
  ext_run fuel (X_div_euclid x y) = Ok (F32_div_euclid x y) /\
  ext_run fuel (X_exp x) = F32_exp x /\
  ext_run fuel (X_floor x) = Ok (F32_floor x) /\
  ext_run fuel (X_fract x) = F32_fract x /\
  ext_run fuel (X_hypot x y) = F32_hypot x y /\
  ext_run fuel (X_inv x) = Ok (F32_inv x) /\
  ext_run fuel (X_invsqrt x) = F32_invsqrt x /\
  ext_run fuel (X_ln x) = Ok (F32_ln x) /\
  ext_run fuel (X_log x y) = Ok (F32_log x y) /\
  ext_run fuel (X_log2 x) = Ok (F32_log2 x) /\
  ext_run fuel (X_log10 x) = Ok (F32_log10 x) /\
  ext_run fuel (X_mul_add x y z) = Ok (F32_mul_add x y z) /\
  ext_run fuel (X_powf x y) = F32_powf x y /\
  ext_run fuel (X_powi x n) = F32_powi fuel x n /\
  ext_run fuel (X_recip x) = Ok (F32_recip x) /\
  ext_run fuel (X_rem_euclid x y) = Ok (F32_rem_euclid x y) /\
  ext_run fuel (X_round x) = Ok (F32_round x) /\
  ext_run fuel (X_signum x) = Ok (F32_signum x) /\
  ext_run fuel (X_sin x) = Ok (F32_sin x) /\
  ext_run fuel (X_sqrt x) = F32_sqrt x /\
  ext_run fuel (X_tan x) = Ok (F32_tan x) /\
  ext_run fuel (X_trunc x) = Ok (F32_trunc x) /\
  ext_sin_cos x = (F32_sin x, F32_cos x).
Proof. intros. repeat split; reflexivity. Qed.
Print Assumptions C101_ext_forwards.

(** 7.0.rem_euclid(-3.0) = 1, 7.0.copysign(-3.0) = -7, 7.0.mul_add(2.0, 1.0) = 15. *)
Example C101_case :
  @ext_run env_debug 0 (X_rem_euclid (f32_of_Z 7) (f32_of_Z (-3))) = Ok (from_bits 0x3F800000) /\
  @ext_run env_debug 0 (X_copysign (f32_of_Z 7) (f32_of_Z (-3))) = Ok (from_bits 0xC0E00000) /\
  @ext_run env_debug 0 (X_mul_add (f32_of_Z 7) (f32_of_Z 2) (f32_of_Z 1)) = Ok (from_bits 0x41700000).
Proof. repeat split; apply ok_bits; vm_compute; reflexivity. Qed.
