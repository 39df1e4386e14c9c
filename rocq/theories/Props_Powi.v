(** * Properties C36-C41: powi

    [F32_powi fuel x n] runs the loop of powi.rs with an iteration budget;
    [NoFuel] means that the budget was used up. *)

From Coq Require Import ZArith Reals Bool List Lia Lra.
From Flocq Require Import Core IEEE754.Binary IEEE754.Bits.
From Verif Require Import Base Spec Float TestEnv F32Lemmas BitLemmas Literals ErrLemmas
  NanLemmas P_RoundEdge P_Powi P_Powi2 P_Powi3.
Open Scope Z_scope.

(** ** C36 *)

Theorem C36_powi_exponent_zero : forall {E : Env} fuel x, F32_powi fuel x 0 = Ok F32_ONE.
Proof. exact @powi_zero_exp. Qed.
Print Assumptions C36_powi_exponent_zero.

Theorem C36_powi_zero_base : forall {E : Env} fuel x n, feq x F32_ZERO = true -> 0 < n < 2 ^ 31 -> F32_powi fuel x n = Ok x.
Proof. exact @powi_zero_base. Qed.
Print Assumptions C36_powi_zero_base.

Theorem C36_powi_exponent_one : forall {E : Env} fuel x, fin x -> (31 <= fuel)%nat -> F32_powi fuel x 1 = Ok x.
Proof. exact @powi_1. Qed.
Print Assumptions C36_powi_exponent_one.

(** NaN and the infinities: an infinity for positive exponents, 0 below -1.  NaN is not propagated. *)
Theorem C36_powi_nonfinite : forall {E : Env} fuel x n, is_finite x = false -> 0 < n < 2 ^ 24 ->
  F32_powi fuel x n = Ok (f32_inf (sign_bit x && Z.odd n)).
Proof. exact @powi_nonfinite. Qed.
Print Assumptions C36_powi_nonfinite.

Theorem C36_powi_nonfinite_neg : forall {E : Env} fuel x n, is_finite x = false -> - 2 ^ 24 <= n < -1 -> F32_powi fuel x n = Ok F32_ZERO.
Proof. exact @powi_nonfinite_neg. Qed.
Print Assumptions C36_powi_nonfinite_neg.

(** NaN^0 = 1, (-0.0)^2 = -0.0, NaN^3 = inf. *)
Example C36_case : @F32_powi env_debug 31 (from_bits 0x7FC00000) 0 = Ok F32_ONE /\
  @F32_powi env_debug 31 (f32_zero true) 2 = Ok (f32_zero true) /\
  @F32_powi env_debug 31 (from_bits 0x7FC00000) 3 = Ok F32_INFINITY.
Proof. split; [|split]; vm_compute; reflexivity. Qed.

(** ** C37 *)

Theorem C37_powi_accuracy_base_ge1 : forall {E : Env} x N fuel, fin x -> (1 <= Rabs (val x))%R -> (1 <= N)%nat -> Z.of_nat N < 2 ^ 31 -> (31 <= fuel)%nat ->
  (Rabs (val x ^ N) * (1 + bpow radix2 (-24)) ^ (N - 1) <= IZR (2 ^ 24 - 1) * bpow radix2 104)%R ->
  exists r, F32_powi fuel x (Z.of_nat N) = Ok r /\ fin r /\
    (Rabs (val r - val x ^ N) <= ((1 + bpow radix2 (-24)) ^ (N - 1) - 1) * Rabs (val x ^ N))%R.
Proof. exact @powi_accuracy_grow. Qed.
Print Assumptions C37_powi_accuracy_base_ge1.

Theorem C37_powi_accuracy_base_le1 : forall {E : Env} x N fuel, fin x -> (Rabs (val x) <= 1)%R -> (1 <= N)%nat -> Z.of_nat N < 2 ^ 31 -> (31 <= fuel)%nat ->
  (bpow radix2 (-126) <= Rabs (val x ^ N) * (1 - bpow radix2 (-24)) ^ (N - 1))%R ->
  ((1 / 2 <= Rabs (val x))%R \/ exists e, (bpow radix2 e <= Rabs (val x) < bpow radix2 (e + 1))%R /\ -149 <= e * Z.of_nat N) ->
  exists r, F32_powi fuel x (Z.of_nat N) = Ok r /\ fin r /\
    (Rabs (val r - val x ^ N) <= ((1 + bpow radix2 (-24)) ^ (N - 1) - 1) * Rabs (val x ^ N))%R.
Proof. exact @powi_accuracy_shrink. Qed.
Print Assumptions C37_powi_accuracy_base_le1.

(** Negative exponents pay twice, because 1/x is rounded before the powering. *)
Theorem C37_powi_accuracy_negative_ge1 : forall {E : Env} x N fuel, fin x -> (1 <= Rabs (val x))%R -> (1 <= N)%nat -> Z.of_nat N < 2 ^ 31 -> (31 <= fuel)%nat ->
  (bpow radix2 (-126) <= Rabs ((/ val x) ^ N) * (1 - bpow radix2 (-24)) ^ (2 * N - 1))%R ->
  exists r, F32_powi fuel x (- Z.of_nat N) = Ok r /\ fin r /\
    (Rabs (val r - (/ val x) ^ N) <= ((1 + bpow radix2 (-24)) ^ (2 * N - 1) - 1) * Rabs ((/ val x) ^ N))%R.
Proof. exact @powi_accuracy_neg_shrink. Qed.
Print Assumptions C37_powi_accuracy_negative_ge1.

Theorem C37_powi_accuracy_negative_le1 : forall {E : Env} x N fuel, fin x -> (bpow radix2 (-126) <= Rabs (val x) <= 1)%R -> (1 <= N)%nat -> Z.of_nat N < 2 ^ 31 -> (31 <= fuel)%nat ->
  (Rabs ((/ val x) ^ N) * (1 + bpow radix2 (-24)) ^ (2 * N - 1) <= IZR (2 ^ 24 - 1) * bpow radix2 104)%R ->
  ((1 / 2 <= Rabs (val x))%R \/ exists e, (bpow radix2 e <= Rabs (val x) < bpow radix2 (e + 1))%R /\ - (e * Z.of_nat N) <= 127) ->
  exists r, F32_powi fuel x (- Z.of_nat N) = Ok r /\ fin r /\
    (Rabs (val r - (/ val x) ^ N) <= ((1 + bpow radix2 (-24)) ^ (2 * N - 1) - 1) * Rabs ((/ val x) ^ N))%R.
Proof. exact @powi_accuracy_neg_grow. Qed.
Print Assumptions C37_powi_accuracy_negative_le1.

(** 1.1^13 = 3.4522722 and 3^5 = 243. *)
Example C37_case : @F32_powi env_debug 31 (from_bits 0x3F8CCCCD) 13 = Ok (from_bits 0x405CF207) /\
  @F32_powi env_debug 31 (from_bits 0x40400000) 5 = Ok (from_bits 0x43730000).
Proof. split; apply ok_bits; vm_compute; reflexivity. Qed.

(** ** C38 *)

Theorem C38_powi_terminates : forall {E : Env} x n, - 2 ^ 31 < n < 2 ^ 31 ->
  (overflow_checks = false \/ (fle c_0_5 (F32_abs x) && flt (F32_abs x) c_2 = true) \/
     - 2 ^ 31 <= extract_exponent_value x * n <= 2 ^ 31 - 1) ->
  exists r, forall fuel, (31 <= fuel)%nat -> F32_powi fuel x n = Ok r.
Proof. exact @powi_total. Qed.
Print Assumptions C38_powi_terminates.

Theorem C38_powi_small_exponents_total : forall {E : Env} x n, - 2 ^ 24 < n < 2 ^ 24 ->
  exists r, forall fuel, (31 <= fuel)%nat -> F32_powi fuel x n = Ok r.
Proof. exact @powi_small_total. Qed.
Print Assumptions C38_powi_small_exponents_total.

Theorem C38_powi_panic_iff : forall {E : Env} fuel x n, - 2 ^ 31 <= n <= 2 ^ 31 - 1 -> (F32_powi fuel x n = Panic <->
  overflow_checks = true /\ (n = - 2 ^ 31 \/
    (n <> 0 /\ ~ (feq x F32_ZERO = true /\ 0 < n) /\ fle c_0_5 (F32_abs x) && flt (F32_abs x) c_2 = false /\
     ~ (- 2 ^ 31 <= extract_exponent_value x * n <= 2 ^ 31 - 1)))).
Proof. exact @powi_panic. Qed.
Print Assumptions C38_powi_panic_iff.

(** 1.0000001^2147483646 = 2^369 overflows to inf after 31 iterations, and 30 are not enough. *)
Example C38_case : @F32_powi env_debug 31 (from_bits 0x3F800001) (2 ^ 31 - 2) = Ok F32_INFINITY /\
  @F32_powi env_debug 30 (from_bits 0x3F800001) (2 ^ 31 - 2) = NoFuel.
Proof. split; vm_compute; reflexivity. Qed.

(** ** C39 *)

Theorem C39_powi_min_checked : forall {E : Env} fuel x, overflow_checks = true -> F32_powi fuel x (- 2 ^ 31) = Panic.
Proof. exact @powi_min_checked. Qed.
Print Assumptions C39_powi_min_checked.

(** Without overflow checks the loop never ends for any base in [1/2, 2) or with an even exponent field. *)
Theorem C39_powi_min_unchecked_loops : forall {E : Env} fuel x, overflow_checks = false ->
  ((fle c_0_5 (F32_abs x) && flt (F32_abs x) c_2 = true) \/ Z.Even (extract_exponent_value x)) ->
  F32_powi fuel x (- 2 ^ 31) = NoFuel.
Proof. exact @powi_min_loops. Qed.
Print Assumptions C39_powi_min_unchecked_loops.

Theorem C39_powi_min_unchecked_returns : forall {E : Env} fuel x, overflow_checks = false ->
  (fle c_0_5 (F32_abs x) && flt (F32_abs x) c_2 = false) -> Z.Odd (extract_exponent_value x) ->
  F32_powi fuel x (- 2 ^ 31) = Ok (if feq x F32_ZERO then F32_INFINITY else F32_ZERO).
Proof. exact @powi_min_returns. Qed.
Print Assumptions C39_powi_min_unchecked_returns.

Example C39_case : @F32_powi env_debug 31 F32_ONE (- 2 ^ 31) = Panic /\ @F32_powi env_release 1000 F32_ONE (- 2 ^ 31) = NoFuel.
Proof. split; vm_compute; reflexivity. Qed.

(** ** C40 *)

Theorem C40_powi_early_inf : forall {E : Env} fuel x n e, fin x -> -126 <= e -> (bpow radix2 e <= Rabs (val x) < bpow radix2 (e + 1))%R ->
  e <= -2 \/ 1 <= e -> - 2 ^ 31 < n < 2 ^ 31 -> 127 < e * n <= 2 ^ 31 - 1 -> F32_powi fuel x n = Ok (f32_inf (sign_bit x && Z.odd n)).
Proof. exact @powi_early_inf. Qed.
Print Assumptions C40_powi_early_inf.

Theorem C40_powi_early_zero : forall {E : Env} fuel x n e, fin x -> -126 <= e -> (bpow radix2 e <= Rabs (val x) < bpow radix2 (e + 1))%R ->
  e <= -2 \/ 1 <= e -> - 2 ^ 31 < n < 2 ^ 31 -> - 2 ^ 31 <= e * n < -149 -> F32_powi fuel x n = Ok F32_ZERO.
Proof. exact @powi_early_zero. Qed.
Print Assumptions C40_powi_early_zero.

(** The exits are premature: x^75 >= 2^-76 is returned as 0, and x^-64 <= 2^65 as infinity. *)
Theorem C40_powi_underflow_exit_refuted : forall {E : Env} fuel, exists x, fin x /\ (0.49 < val x < 0.5)%R /\
  F32_powi fuel x 75 = Ok F32_ZERO /\ (bpow radix2 (-76) <= val x ^ 75)%R.
Proof. exact @powi_premature_zero. Qed.
Print Assumptions C40_powi_underflow_exit_refuted.

Theorem C40_powi_overflow_exit_refuted : forall {E : Env} fuel, exists x, fin x /\ (0.49 < val x < 0.5)%R /\
  F32_powi fuel x (-64) = Ok F32_INFINITY /\ ((/ val x) ^ 64 <= bpow radix2 65)%R.
Proof. exact @powi_premature_inf. Qed.
Print Assumptions C40_powi_overflow_exit_refuted.

(** 4^(2^30): the i32 product of exponent and n overflows: a panic, or 0 instead of infinity. *)
Theorem C40_powi_exponent_product_overflow_refuted : forall {E : Env} fuel, fin c_4 /\ val c_4 = 4%R /\
  F32_powi fuel c_4 (2 ^ 30) = if overflow_checks then Panic else Ok F32_ZERO.
Proof. exact @powi_exponent_overflow. Qed.
Print Assumptions C40_powi_exponent_product_overflow_refuted.

Example C40_case : @F32_powi env_debug 31 (from_bits 0x3EFFF2E5) 75 = Ok F32_ZERO /\
  @F32_powi env_debug 31 (from_bits 0x3EFFF2E5) (-64) = Ok F32_INFINITY /\
  match @F32_powi env_debug 31 (from_bits 0x3EFFF2E5) 74 with Ok r => fgt r F32_ZERO = true | _ => False end.
Proof. split; [|split]; vm_compute; reflexivity. Qed.

(** ** C41 *)

Theorem C41_powi_even : forall {E : Env} fuel x n, - 2 ^ 31 <= n <= 2 ^ 31 - 1 -> Z.Even n -> feq x F32_ZERO = false ->
  match F32_powi fuel x n, F32_powi fuel (fneg x) n with
  | Ok a, Ok b => same a b | Panic, Panic => True | NoFuel, NoFuel => True | _, _ => False end.
Proof. exact @powi_even. Qed.
Print Assumptions C41_powi_even.

Theorem C41_powi_odd : forall {E : Env} fuel x n, - 2 ^ 31 <= n <= 2 ^ 31 - 1 -> Z.Odd n -> is_nan x = false -> feq x F32_ZERO = false ->
  match F32_powi fuel x n, F32_powi fuel (fneg x) n with
  | Ok a, Ok b => same b (fneg a) \/ (a = F32_ZERO /\ b = F32_ZERO) | Panic, Panic => True | NoFuel, NoFuel => True | _, _ => False end.
Proof. exact @powi_odd. Qed.
Print Assumptions C41_powi_odd.

Theorem C41_powi_odd_middle : forall {E : Env} fuel x n, - 2 ^ 31 <= n <= 2 ^ 31 - 1 -> Z.Odd n -> fin x -> (1 / 2 <= Rabs (val x) < 2)%R ->
  match F32_powi fuel x n, F32_powi fuel (fneg x) n with
  | Ok a, Ok b => same b (fneg a) | Panic, Panic => True | NoFuel, NoFuel => True | _, _ => False end.
Proof. exact @powi_odd_mid. Qed.
Print Assumptions C41_powi_odd_middle.

(** The sign is lost in the underflow exit: (-0.25)^75 is +0. *)
Example C41_case : @F32_powi env_debug 31 (from_bits 0xC0400000) 5 = Ok (from_bits 0xC3730000) /\
  @F32_powi env_debug 31 (from_bits 0xC0400000) 4 = Ok (from_bits 0x42A20000) /\
  @F32_powi env_debug 31 (from_bits 0xBE800000) 75 = Ok F32_ZERO.
Proof.
  split; [apply ok_bits; vm_compute; reflexivity|]. split; [apply ok_bits; vm_compute; reflexivity|]. vm_compute; reflexivity.
Qed.
