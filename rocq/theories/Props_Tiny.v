(** * Property C115: the trigonometric functions near zero *)

From Coq Require Import ZArith Reals Bool List Lia Lra.
From Flocq Require Import Core IEEE754.Binary IEEE754.Bits.
From Verif Require Import Base Spec Float TestEnv F32Lemmas BitLemmas Literals P_RoundEdge P_Tiny.
Open Scope Z_scope.

(** ** C115 *)

(** sin and tan lose every argument below 2^-25; cos is exactly 1 there. *)
Theorem C115_sin_tiny : forall {E : Env} x, fin x -> (Rabs (val x) <= bpow radix2 (-25))%R ->
  F32_sin x = from_bits 0.
Proof. exact @sin_tiny. Qed.
Print Assumptions C115_sin_tiny.

Theorem C115_tan_tiny : forall {E : Env} x, fin x -> (Rabs (val x) <= bpow radix2 (-25))%R ->
  F32_tan x = from_bits 0.
Proof. exact @tan_tiny. Qed.
Print Assumptions C115_tan_tiny.

Theorem C115_cos_tiny : forall {E : Env} x, fin x -> (Rabs (val x) <= bpow radix2 (-25))%R ->
  F32_cos x = from_bits 0x3F800000.
Proof. exact @cos_tiny. Qed.
Print Assumptions C115_cos_tiny.

(** atan(x) is about 0.9365 x and asin(x) about 0.905 x for small x, where the true ratio is 1. *)
Theorem C115_atan_small : forall {E : Env} x, fin x -> (bpow radix2 (-100) <= Rabs (val x) <= bpow radix2 (-12))%R ->
  fin (F32_atan x) /\ sign_bit (F32_atan x) = sign_bit x /\
  (0.936 * Rabs (val x) <= Rabs (val (F32_atan x)) <= 0.937 * Rabs (val x))%R.
Proof. exact @atan_small. Qed.
Print Assumptions C115_atan_small.

Theorem C115_asin_small : forall {E : Env} x, fin x -> (bpow radix2 (-99) <= Rabs (val x) <= bpow radix2 (-13))%R ->
  exists r, F32_asin x = Ok r /\ fin r /\ sign_bit r = sign_bit x /\
  (0.904 * Rabs (val x) <= Rabs (val r) <= 0.906 * Rabs (val x))%R.
Proof. exact @asin_small. Qed.
Print Assumptions C115_asin_small.

(** sin(2^-25) = 0 and cos(2^-25) = 1; atan(2^-12) = 2.2868e-04 (true value 2.4414e-4);
    asin(-2^-13) = -1.1047e-04 (true value -1.2207e-4). *)
Example C115_case : to_bits (@F32_sin env_debug (from_bits 0x33000000)) = 0 /\
  to_bits (@F32_cos env_debug (from_bits 0x33000000)) = 0x3F800000 /\
  to_bits (@F32_atan env_debug (from_bits 0x39800000)) = 0x396FC912 /\
  @F32_asin env_debug (from_bits 0xB9000000) = Ok (from_bits 0xB8E7AC2C).
Proof. repeat split; try (apply ok_bits; vm_compute; reflexivity); vm_compute; reflexivity. Qed.
