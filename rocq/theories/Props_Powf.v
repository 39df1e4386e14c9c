(** * Properties C34, C35, C87-C89: powf *)

From Coq Require Import ZArith Reals Bool List Lia Lra.
From Flocq Require Import Core IEEE754.Binary IEEE754.Bits.
From Verif Require Import Base Spec Float TestEnv F32Lemmas BitLemmas Literals ErrLemmas
  NanLemmas P_RoundEdge P_Powf.
Open Scope Z_scope.

(** ** C34 *)

Theorem C34_powf_even : forall {E : Env} x n k, flt x F32_ZERO = true -> fin n -> val n = IZR k -> (Rabs (val n) < bpow radix2 32)%R ->
  Z.Even k -> F32_powf x n = F32_powf (fneg x) n.
Proof. exact @powf_even. Qed.
Print Assumptions C34_powf_even.

Theorem C34_powf_odd : forall {E : Env} x n k, flt x F32_ZERO = true -> fin n -> val n = IZR k -> (Rabs (val n) < bpow radix2 32)%R ->
  Z.Odd k -> F32_powf x n = (r <- F32_powf (fneg x) n ;; Ok (fneg r)).
Proof. exact @powf_odd. Qed.
Print Assumptions C34_powf_odd.

Theorem C34_powf_not_integer : forall {E : Env} x n, flt x F32_ZERO = true -> fin n -> (1 <= Rabs (val n) < bpow radix2 32)%R ->
  ~ (exists k, val n = IZR k) -> exists r, F32_powf x n = Ok r /\ nan r.
Proof. exact @powf_nonint. Qed.
Print Assumptions C34_powf_not_integer.

(** The rules fail from 2^32 on, where the integer test shifts by the exponent modulo 32. *)
Theorem C34_powf_integer_2_32_refuted : forall {E : Env}, exists x n r,
  fin x /\ val x = (-1)%R /\ fin n /\ val n = IZR 4294967808 /\ F32_powf x n = Ok r /\ nan r.
Proof. exact @powf_big_integer. Qed.
Print Assumptions C34_powf_integer_2_32_refuted.

(** (-3)^2 = 8.999694, (-3)^-1 = -0.33334, (-3)^1.5 is NaN. *)
Example C34_case : @F32_powf env_debug (from_bits 0xC0400000) (from_bits 0x40000000) = Ok (from_bits 0x410FFEBF) /\
  @F32_powf env_debug (from_bits 0x40400000) (from_bits 0x40000000) = Ok (from_bits 0x410FFEBF) /\
  match @F32_powf env_debug (from_bits 0xC0400000) (from_bits 0xBF800000) with Ok r => sign_bit r = true | _ => False end /\
  match @F32_powf env_debug (from_bits 0xC0400000) (from_bits 0x3FC00000) with Ok r => is_nan r = true | _ => False end.
Proof.
  split; [apply ok_bits; vm_compute; reflexivity|]. split; [apply ok_bits; vm_compute; reflexivity|].
  split; vm_compute; reflexivity.
Qed.

(** ** C35 *)

(** Exponents +-2^-k are taken for even integers: the result is that of the positive base, not NaN. *)
Theorem C35_powf_power_of_two : forall {E : Env} x n k, flt x F32_ZERO = true -> fin n -> 1 <= k <= 126 ->
  (Rabs (val n) = bpow radix2 (- k))%R -> F32_powf x n = F32_powf (fneg x) n.
Proof. exact @powf_pow2. Qed.
Print Assumptions C35_powf_power_of_two.

(** Every other exponent of magnitude below one (non-zero mantissa field) gives NaN. *)
Theorem C35_powf_below_one : forall {E : Env} x n, flt x F32_ZERO = true -> fin n -> (Rabs (val n) < 1)%R ->
  F32_powf x n = if to_bits n mod 2 ^ 23 =? 0 then F32_powf (fneg x) n else Ok f32_NAN.
Proof. exact @powf_small. Qed.
Print Assumptions C35_powf_below_one.

(** (-2)^0.5 = 1.4142122. *)
Example C35_case : @F32_powf env_debug (from_bits 0xC0000000) (from_bits 0x3F000000) = Ok (from_bits 0x3FB504E8) /\
  match @F32_powf env_debug (from_bits 0xC0000000) (from_bits 0x3F400000) with Ok r => is_nan r = true | _ => False end.
Proof. split; [apply ok_bits|]; vm_compute; reflexivity. Qed.

(** ** C87 *)

Theorem C87_powf_accuracy_ge1 : forall {E : Env} x n, fin x -> (1 <= val x)%R -> fin n -> (Rabs (val n) * (ln (val x) + 0.0000761) <= 87.33)%R ->
  exists r, F32_powf x n = Ok r /\ fin r /\ (0 < val r)%R /\
    (Rabs (val r - Rpower (val x) (val n)) <= (1.0023975 * exp (0.0000761 * Rabs (val n) + 0.0000039) - 1) * Rpower (val x) (val n))%R.
Proof. exact @powf_acc_ge1. Qed.
Print Assumptions C87_powf_accuracy_ge1.

Theorem C87_powf_accuracy_small_exponent : forall {E : Env} x n, fin x -> (1 <= val x)%R -> fin n -> (Rabs (val n) <= 8)%R -> (Rabs (val n) * ln (val x) <= 87)%R ->
  exists r, F32_powf x n = Ok r /\ fin r /\ (0 < val r)%R /\
    (Rabs (val r - Rpower (val x) (val n)) <= 0.0031 * Rpower (val x) (val n))%R.
Proof. exact @powf_acc_8. Qed.
Print Assumptions C87_powf_accuracy_small_exponent.

Theorem C87_powf_accuracy_lt1 : forall {E : Env} x n, normal_pos x -> (val x < 1)%R -> fin n -> (0 <= val n)%R -> (val n * (0.11786 - ln (val x)) <= 87.33)%R ->
  exists r, F32_powf x n = Ok r /\ fin r /\
    (0.9976 * exp (- (0.11786 * val n + 0.0000039)) * Rpower (val x) (val n) <= val r <=
     1.0024 * exp (0.0000761 * val n + 0.0000039) * Rpower (val x) (val n))%R.
Proof. exact @powf_acc_lt1. Qed.
Print Assumptions C87_powf_accuracy_lt1.

Theorem C87_powf_accuracy_lt1_neg : forall {E : Env} x n, normal_pos x -> (val x < 1)%R -> fin n -> (val n <= 0)%R -> (- val n * (0.11786 - ln (val x)) <= 87.33)%R ->
  exists r, F32_powf x n = Ok r /\ fin r /\
    (0.9976 * exp (- (- 0.0000761 * val n + 0.0000039)) * Rpower (val x) (val n) <= val r <=
     1.0024 * exp (- 0.11786 * val n + 0.0000039) * Rpower (val x) (val n))%R.
Proof. exact @powf_acc_lt1_neg. Qed.
Print Assumptions C87_powf_accuracy_lt1_neg.

(** The relative error 0.002 of the unit tests is exceeded, for a base above one ... *)
Theorem C87_powf_test_error_refuted : forall {E : Env}, exists x n r,
  fin x /\ (1 <= val x)%R /\ fin n /\ (-1 <= val n)%R /\ (val n <= 0)%R /\ F32_powf x n = Ok r /\ fin r /\
  (Rabs (val r - Rpower (val x) (val n)) > 0.0023 * Rpower (val x) (val n))%R.
Proof. exact @powf_err_point. Qed.
Print Assumptions C87_powf_test_error_refuted.

(** ... and by far for a base below one: powf(0.75, 1) is 11% too small. *)
Theorem C87_powf_small_base_refuted : forall {E : Env}, exists x n r,
  fin x /\ val x = 0.75%R /\ fin n /\ val n = 1%R /\ F32_powf x n = Ok r /\ fin r /\
  (val r < 0.89 * Rpower (val x) (val n))%R.
Proof. exact @powf_small_base_point. Qed.
Print Assumptions C87_powf_small_base_refuted.

(** 3^-1.5 = 0.19245742 (true value 0.19245009). *)
Example C87_case : @F32_powf env_debug (from_bits 0x40400000) (from_bits 0xBFC00000) = Ok (from_bits 0x3E45138F).
Proof. apply ok_bits; vm_compute; reflexivity. Qed.

(** ** C88 *)

Theorem C88_powf_exponent_zero : forall {E : Env} x n, fin x -> fin n -> val n = 0%R -> (val x <> 0%R \/ sign_bit x = false) ->
  F32_powf x n = Ok F32_ONE.
Proof. exact @powf_exp_zero. Qed.
Print Assumptions C88_powf_exponent_zero.

Theorem C88_powf_base_one : forall {E : Env} n, fin n -> F32_powf F32_ONE n = Ok F32_ONE.
Proof. exact @powf_one. Qed.
Print Assumptions C88_powf_base_one.

Theorem C88_powf_base_zero : forall {E : Env} n, fin n -> (1.001 <= val n)%R -> F32_powf (f32_zero false) n = Ok F32_ZERO.
Proof. exact @powf_zero. Qed.
Print Assumptions C88_powf_base_zero.

(** 0^0.5 is not 0 but 7.667e-20. *)
Theorem C88_powf_zero_half_refuted : forall {E : Env}, F32_powf (f32_zero false) c_0_5 = Ok (from_bits 0x1FB50610).
Proof. exact @powf_zero_half. Qed.
Print Assumptions C88_powf_zero_half_refuted.

(** NaN is not propagated. *)
Theorem C88_powf_nan_exponent : forall {E : Env} x n, is_nan x = false -> sign_bit x = false -> nan n ->
  F32_powf x n = Ok F32_INFINITY \/ F32_powf x n = Ok F32_ZERO.
Proof. exact @powf_nan_exp. Qed.
Print Assumptions C88_powf_nan_exponent.

Theorem C88_powf_nan_exponent_negative : forall {E : Env} x n, flt x F32_ZERO = true -> nan n -> exists r, F32_powf x n = Ok r /\ nan r.
Proof. exact @powf_nan_exp_neg. Qed.
Print Assumptions C88_powf_nan_exponent_negative.

Theorem C88_powf_nan_base : forall {E : Env} x n k, nan x -> fin n -> val n = IZR k -> (Rabs (val n) < bpow radix2 32)%R ->
  exists r, F32_powf x n = Ok r /\ is_nan r = false.
Proof. exact @powf_nan_base. Qed.
Print Assumptions C88_powf_nan_base.

(** +inf and -0.0 as bases go through a NaN logarithm and end in +inf or 0 for every exponent. *)
Theorem C88_powf_inf_base : forall {E : Env} n, F32_powf (f32_inf false) n = Ok F32_INFINITY \/ F32_powf (f32_inf false) n = Ok F32_ZERO.
Proof. exact @powf_inf_base. Qed.
Print Assumptions C88_powf_inf_base.

Theorem C88_powf_negative_zero_base : forall {E : Env} n, F32_powf (f32_zero true) n = Ok F32_INFINITY \/ F32_powf (f32_zero true) n = Ok F32_ZERO.
Proof. exact @powf_neg_zero. Qed.
Print Assumptions C88_powf_negative_zero_base.

Example C88_case : @F32_powf env_debug (from_bits 0xC0400000) (f32_zero true) = Ok F32_ONE /\
  @F32_powf env_debug (from_bits 0x40400000) (from_bits 0x7FC00000) = Ok F32_INFINITY.
Proof. split; vm_compute; reflexivity. Qed.

(** ** C89 *)

Theorem C89_powf_overflow : forall {E : Env} x n, fin x -> (1 <= val x)%R -> fin n -> (0 <= val n)%R ->
  (89.416 <= val n * (ln (val x) - 0.0000761))%R -> F32_powf x n = Ok F32_INFINITY.
Proof. exact @powf_over. Qed.
Print Assumptions C89_powf_overflow.

Theorem C89_powf_underflow : forall {E : Env} x n, fin x -> (1 <= val x)%R -> fin n -> (val n <= 0)%R ->
  (val n * (ln (val x) - 0.0000761) <= - 88.0297)%R -> F32_powf x n = Ok F32_ZERO.
Proof. exact @powf_under. Qed.
Print Assumptions C89_powf_underflow.

Theorem C89_powf_panic_iff : forall {E : Env} x n, is_nan x = false -> sign_bit x = false ->
  (F32_powf x n = Panic <-> debug_assertions = true /\
     fin (fmul n (F32_ln x)) /\ (88.72283935546875 <= val (fmul n (F32_ln x)) <= 89.41597747802734375)%R).
Proof. exact @powf_panic_iff. Qed.
Print Assumptions C89_powf_panic_iff.

Theorem C89_powf_release_total : forall {E : Env} x n, debug_assertions = false -> exists r, F32_powf x n = Ok r.
Proof. exact @powf_no_panic_release. Qed.
Print Assumptions C89_powf_release_total.

(** 2^128.5 panics in a debug build. *)
Theorem C89_powf_overflow_panics_refuted : forall {E : Env}, debug_assertions = true -> F32_powf c_2 (from_bits 0x43008000) = Panic.
Proof. exact @powf_panic_point. Qed.
Print Assumptions C89_powf_overflow_panics_refuted.

Example C89_case : @F32_powf env_debug (from_bits 0x41200000) (from_bits 0x42200000) = Ok F32_INFINITY /\
  @F32_powf env_debug (from_bits 0x41200000) (from_bits 0xC2200000) = Ok F32_ZERO.
Proof. split; vm_compute; reflexivity. Qed.
