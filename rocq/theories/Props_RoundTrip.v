(** * Property C111: functions followed by their inverses *)

From Coq Require Import ZArith Reals Bool List Lia Lra.
From Flocq Require Import Core IEEE754.Binary IEEE754.Bits.
From Verif Require Import Base Spec Float TestEnv F32Lemmas BitLemmas Literals ErrLemmas
  NanLemmas P_RoundEdge P_RoundTrip.
Open Scope Z_scope.

(** ** C111 *)

(** exp undoes ln to 0.084 % for 1 <= x <= 2^127. *)
Theorem C111_exp_ln : forall {E : Env} x, fin x -> (1 <= val x <= bpow radix2 127)%R ->
  exists r, F32_exp (F32_ln x) = Ok r /\ fin r /\ (Rabs (val r - val x) <= 0.00084 * val x)%R.
Proof. exact @exp_of_ln. Qed.
Print Assumptions C111_exp_ln.

(** Below 1 the round trip can lose more than a tenth of the value, and no more than 11.5 %. *)
Theorem C111_exp_ln_below_one : forall {E : Env} x, normal_pos x -> (bpow radix2 (-125) <= val x < 1)%R ->
  exists r, F32_exp (F32_ln x) = Ok r /\ fin r /\ (0.885 * val x <= val r <= 1.0025 * val x)%R.
Proof. exact @exp_of_ln_lt1. Qed.
Print Assumptions C111_exp_ln_below_one.

(** "exp undoes ln to 10 %" is false for x < 1. *)
Theorem C111_exp_ln_refuted : forall {E : Env}, exists x r, normal_pos x /\ (0.69 < val x < 0.71)%R /\
  F32_exp (F32_ln x) = Ok r /\ fin r /\ (val r < 0.9 * val x)%R.
Proof. exact @exp_ln_bad. Qed.
Print Assumptions C111_exp_ln_refuted.

(** ln undoes exp to within 0.00084 wherever exp stays finite on nonnegative arguments. *)
Theorem C111_ln_exp : forall {E : Env} x, fin x -> (0 <= val x <= 88.72283172607421875)%R ->
  exists r, F32_exp x = Ok r /\ fin (F32_ln r) /\ (Rabs (val (F32_ln r) - val x) <= 0.00084)%R.
Proof. exact @ln_of_exp. Qed.
Print Assumptions C111_ln_exp.

(** sin(asin x) is within 0.0221 of x on [-1, 1]. *)
Theorem C111_sin_asin : forall {E : Env} x, fin x -> (Rabs (val x) <= 1)%R ->
  exists r, F32_asin x = Ok r /\ fin (F32_sin r) /\ (Rabs (val (F32_sin r) - val x) <= 0.0221)%R.
Proof. exact @sin_of_asin. Qed.
Print Assumptions C111_sin_asin.

(** cos(acos x) is within 0.0339 of x on [-1, 1], the arguments 0 < |x| <= 2^-64 excepted (there acos
    itself is wrong, see C53). *)
Theorem C111_cos_acos : forall {E : Env} x, fin x -> (Rabs (val x) <= 1)%R -> (val x = 0%R \/ (bpow radix2 (-64) < Rabs (val x))%R) ->
  exists r, F32_acos x = Ok r /\ fin (F32_cos r) /\ (Rabs (val (F32_cos r) - val x) <= 0.0339)%R.
Proof. exact @cos_of_acos. Qed.
Print Assumptions C111_cos_acos.

(** tan(atan x) is within 0.0176 of x on [-1, 1]. *)
Theorem C111_tan_atan : forall {E : Env} x, fin x -> (Rabs (val x) <= 1)%R ->
  fin (F32_tan (F32_atan x)) /\ (Rabs (val (F32_tan (F32_atan x)) - val x) <= 0.0176)%R.
Proof. exact @tan_of_atan. Qed.
Print Assumptions C111_tan_atan.

(** sqrt(x) * sqrt(x), computed in floats, is at most 12.503 % too large and at most 3e-7 too small. *)
Theorem C111_square_sqrt : forall {E : Env} x, normal_pos x -> (bpow radix2 (-125) <= val x <= bpow radix2 126)%R ->
  exists z, F32_sqrt x = Ok z /\ fin (fmul z z) /\ (0.9999997 * val x <= val (fmul z z) <= 1.12503 * val x)%R.
Proof. exact @square_of_sqrt. Qed.
Print Assumptions C111_square_sqrt.

(** The two root functions agree with each other: sqrt(x) * invsqrt(x), as a real product, is near 1. *)
Theorem C111_sqrt_invsqrt : forall {E : Env} x, normal_pos x ->
  exists z y, F32_sqrt x = Ok z /\ F32_invsqrt x = Ok y /\ (0.9652 <= val z * val y <= 1.0975)%R.
Proof. exact @invsqrt_vs_sqrt. Qed.
Print Assumptions C111_sqrt_invsqrt.

(** exp(ln 10) = 10.0004, ln(exp 2) = 1.99961, sin(asin 0.5) = 0.5114, tan(atan 0.5) = 0.50279,
    sqrt(2)^2 = 2.25. *)
Example C111_case : @F32_exp env_debug (@F32_ln env_debug (from_bits 0x41200000)) = Ok (from_bits 0x4120019F) /\
  @F32_exp env_debug (@F32_ln env_debug (from_bits 0x3F333333)) = Ok (from_bits 0x3F200DFA) /\
  (bind (@F32_exp env_debug (from_bits 0x40000000)) (fun r => Ok (@F32_ln env_debug r))) = Ok (from_bits 0x3FFFF336) /\
  (bind (@F32_asin env_debug (from_bits 0x3F000000)) (fun r => Ok (@F32_sin env_debug r))) = Ok (from_bits 0x3F02EAE6) /\
  @F32_tan env_debug (@F32_atan env_debug (from_bits 0x3F000000)) = from_bits 0x3F00B6F6 /\
  (bind (@F32_sqrt env_debug (from_bits 0x40000000)) (fun z => Ok (@fmul env_debug z z))) = Ok (from_bits 0x40100000).
Proof. repeat split; try (apply ok_bits; vm_compute; reflexivity); apply to_bits_inj; vm_compute; reflexivity. Qed.
