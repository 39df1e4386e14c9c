(** * Property C113: where sqrt, invsqrt and inv are exact *)

From Coq Require Import ZArith Reals Bool List Lia Lra.
From Flocq Require Import Core IEEE754.Binary IEEE754.Bits.
From Verif Require Import Base Spec Float TestEnv F32Lemmas BitLemmas Literals P_RoundEdge P_Exact.
Open Scope Z_scope.

(** ** C113 *)

Theorem C113_sqrt_exact : forall {E : Env} x, normal_pos x ->
  exists z, F32_sqrt x = Ok z /\
    (val z = sqrt (val x) <->
     exists k, val x = (bpow radix2 k * bpow radix2 k)%R \/
               val x = ((4095 * bpow radix2 k) * (4095 * bpow radix2 k))%R).
Proof. exact @sqrt_exact. Qed.
Print Assumptions C113_sqrt_exact.

Theorem C113_inv_exact : forall {E : Env} x, normal_pos x -> (val x <= bpow radix2 126)%R ->
  ((val (F32_inv x) * val x = 1)%R <-> exists k, val x = bpow radix2 k).
Proof. exact @inv_exact. Qed.
Print Assumptions C113_inv_exact.

Theorem C113_invsqrt_never_exact : forall {E : Env} x, normal_pos x ->
  exists z, F32_invsqrt x = Ok z /\ (val x * (val z * val z) <> 1)%R.
Proof. exact @invsqrt_never_exact. Qed.
Print Assumptions C113_invsqrt_never_exact.

(** sqrt(4095^2) = 4095 and sqrt(16) = 4, but sqrt(9) = 3.125; inv(8) = 0.125, inv(3) = 0.375;
    invsqrt(1) = 0.96622. *)
Example C113_case :
  @F32_sqrt env_debug (f32_of_Z (4095 * 4095)) = Ok (f32_of_Z 4095) /\
  @F32_sqrt env_debug (f32_of_Z 16) = Ok (f32_of_Z 4) /\
  @F32_sqrt env_debug (f32_of_Z 9) = Ok (from_bits 0x40480000) /\
  to_bits (@F32_inv env_debug (f32_of_Z 8)) = 0x3E000000 /\
  to_bits (@F32_inv env_debug (f32_of_Z 3)) = 0x3EC00000 /\
  @F32_invsqrt env_debug (f32_of_Z 1) = Ok (from_bits 0x3F775A86).
Proof.
  assert (K : f32_of_Z 4095 = from_bits 0x457FF000) by (apply to_bits_inj; vm_compute; reflexivity). rewrite K.
  assert (K4 : f32_of_Z 4 = from_bits 0x40800000) by (apply to_bits_inj; vm_compute; reflexivity). rewrite K4.
  repeat split; try (apply ok_bits; vm_compute; reflexivity); vm_compute; reflexivity.
Qed.
