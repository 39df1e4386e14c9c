(** * Property C114: the proved error bounds are nearly reached *)

From Coq Require Import ZArith Reals Bool List Lia Lra.
From Flocq Require Import Core IEEE754.Binary IEEE754.Bits.
From Verif Require Import Base Spec Float TestEnv F32Lemmas BitLemmas Literals P_RoundEdge P_Sharp.
Open Scope Z_scope.

(** ** C114

    Each theorem exhibits an input on which the error of the function is at
    least the stated amount; the comment gives the proved upper bound. *)

(** C43: 0.00112 + 1.001e-7 |x|. *)
Theorem C114_cos_bound_sharp : forall {E : Env}, exists x, fin x /\ (Rabs (val x) <= 2)%R /\ fin (F32_cos x) /\
  (0.00109 <= Rabs (val (F32_cos x) - cos (val x)))%R.
Proof. exact @cos_sharp. Qed.
Print Assumptions C114_cos_bound_sharp.

(** C44: 0.00113 + 1.6e-7 |x|. *)
Theorem C114_sin_bound_sharp : forall {E : Env}, exists x, fin x /\ (Rabs (val x) <= 4)%R /\ fin (F32_sin x) /\
  (0.00109 <= Rabs (val (F32_sin x) - sin (val x)))%R.
Proof. exact @sin_sharp. Qed.
Print Assumptions C114_sin_bound_sharp.

(** C47: 0.0114 on |x| <= 1.2. *)
Theorem C114_tan_bound_sharp : forall {E : Env}, exists x, fin x /\ (Rabs (val x) <= 1.2)%R /\ fin (F32_tan x) /\
  (0.00568 <= Rabs (val (F32_tan x) - tan (val x)))%R.
Proof. exact @tan_sharp. Qed.
Print Assumptions C114_tan_bound_sharp.

(** C48: 0.00284. *)
Theorem C114_atan_bound_sharp : forall {E : Env}, exists x, fin x /\ (Rabs (val x) <= 10)%R /\ fin (F32_atan x) /\
  (0.002827 <= Rabs (val (F32_atan x) - atan (val x)))%R.
Proof. exact @atan_sharp. Qed.
Print Assumptions C114_atan_bound_sharp.

(** C52: 0.0209. *)
Theorem C114_asin_bound_sharp : forall {E : Env}, exists x z, fin x /\ (Rabs (val x) <= 1)%R /\ F32_asin x = Ok z /\ fin z /\
  (0.01797 <= Rabs (val z - asin (val x)))%R.
Proof. exact @asin_sharp. Qed.
Print Assumptions C114_asin_bound_sharp.

(** C53: 0.0327. *)
Theorem C114_acos_bound_sharp : forall {E : Env}, exists x z, fin x /\ (Rabs (val x) <= 1)%R /\ F32_acos x = Ok z /\ fin z /\
  (0.02896 <= Rabs (val z - acos (val x)))%R.
Proof. exact @acos_sharp. Qed.
Print Assumptions C114_acos_bound_sharp.

(** C26: 0.000761. *)
Theorem C114_exp_pos_bound_sharp : forall {E : Env}, exists x z, fin x /\ (0 <= val x <= 88.72283172607421875)%R /\ F32_exp x = Ok z /\ fin z /\
  (0.000755 * exp (val x) <= Rabs (val z - exp (val x)))%R.
Proof. exact @exp_pos_sharp. Qed.
Print Assumptions C114_exp_pos_bound_sharp.

(** C26: 0.0023975. *)
Theorem C114_exp_neg_bound_sharp : forall {E : Env}, exists x z, fin x /\ (- 87.3365478515625 <= val x <= 0)%R /\ F32_exp x = Ok z /\ fin z /\
  (0.00239 * exp (val x) <= Rabs (val z - exp (val x)))%R.
Proof. exact @exp_neg_sharp. Qed.
Print Assumptions C114_exp_neg_bound_sharp.

(** C42: 0.000381 e^|x| + 0.0012 e^-|x|. *)
Theorem C114_cosh_bound_sharp : forall {E : Env}, exists x z, fin x /\ (Rabs (val x) <= 88)%R /\ F32_cosh x = Ok z /\ fin z /\
  (0.0003778 * exp (val x) <= Rabs (val z - (exp (val x) + exp (- val x)) / 2))%R.
Proof. exact @cosh_sharp. Qed.
Print Assumptions C114_cosh_bound_sharp.

(** C30: 7.61e-5. *)
Theorem C114_ln_ge1_bound_sharp : forall {E : Env}, exists x, fin x /\ (1 <= val x)%R /\ fin (F32_ln x) /\
  (0.000069 <= Rabs (val (F32_ln x) - ln (val x)))%R.
Proof. exact @ln_ge1_sharp. Qed.
Print Assumptions C114_ln_ge1_bound_sharp.

(** C30: -0.11786. *)
Theorem C114_ln_lt1_bound_sharp : forall {E : Env}, exists x, fin x /\ (bpow radix2 (-126) <= val x < 1)%R /\ fin (F32_ln x) /\
  (val (F32_ln x) - ln (val x) <= - 0.11777)%R.
Proof. exact @ln_lt1_sharp. Qed.
Print Assumptions C114_ln_lt1_bound_sharp.

(** C32: 1.2e-4. *)
Theorem C114_log2_bound_sharp : forall {E : Env}, exists x, fin x /\ (1 <= val x)%R /\ fin (F32_log2 x) /\
  (0.0001037 <= Rabs (val (F32_log2 x) - ln (val x) / ln 2))%R.
Proof. exact @log2_sharp. Qed.
Print Assumptions C114_log2_bound_sharp.

(** C32: -0.1701. *)
Theorem C114_log2_lt1_bound_sharp : forall {E : Env}, exists x, fin x /\ (bpow radix2 (-126) <= val x < 1)%R /\ fin (F32_log2 x) /\
  (val (F32_log2 x) - ln (val x) / ln 2 <= - 0.1699)%R.
Proof. exact @log2_lt1_sharp. Qed.
Print Assumptions C114_log2_lt1_bound_sharp.

(** C32: 4.4e-5. *)
Theorem C114_log10_bound_sharp : forall {E : Env}, exists x, fin x /\ (1 <= val x)%R /\ fin (F32_log10 x) /\
  (0.0000324 <= Rabs (val (F32_log10 x) - ln (val x) / ln 10))%R.
Proof. exact @log10_sharp. Qed.
Print Assumptions C114_log10_bound_sharp.

(** C32: -0.0512. *)
Theorem C114_log10_lt1_bound_sharp : forall {E : Env}, exists x, fin x /\ (bpow radix2 (-126) <= val x < 1)%R /\ fin (F32_log10 x) /\
  (val (F32_log10 x) - ln (val x) / ln 10 <= - 0.05115)%R.
Proof. exact @log10_lt1_sharp. Qed.
Print Assumptions C114_log10_lt1_bound_sharp.

(** C14: 1.06067. *)
Theorem C114_sqrt_hi_bound_sharp : forall {E : Env}, exists x z, fin x /\ (bpow radix2 (-126) <= val x)%R /\ F32_sqrt x = Ok z /\ fin z /\
  (1.06066 * sqrt (val x) <= val z)%R.
Proof. exact @sqrt_hi_sharp. Qed.
Print Assumptions C114_sqrt_hi_bound_sharp.

(** C14: 1 - 2^-24. *)
Theorem C114_sqrt_lo_bound_sharp : forall {E : Env}, exists x z, fin x /\ (bpow radix2 (-126) <= val x)%R /\ F32_sqrt x = Ok z /\ fin z /\
  (val z <= (1 - 0.99999 * bpow radix2 (-24)) * sqrt (val x))%R.
Proof. exact @sqrt_lo_sharp. Qed.
Print Assumptions C114_sqrt_lo_bound_sharp.

(** C17: 0.0347. *)
Theorem C114_invsqrt_hi_bound_sharp : forall {E : Env}, exists x z, fin x /\ (bpow radix2 (-126) <= val x)%R /\ F32_invsqrt x = Ok z /\ fin z /\
  (0.03397 <= val z * sqrt (val x) - 1)%R.
Proof. exact @invsqrt_hi_sharp. Qed.
Print Assumptions C114_invsqrt_hi_bound_sharp.

(** C17: -0.0347. *)
Theorem C114_invsqrt_lo_bound_sharp : forall {E : Env}, exists x z, fin x /\ (bpow radix2 (-126) <= val x)%R /\ F32_invsqrt x = Ok z /\ fin z /\
  (val z * sqrt (val x) - 1 <= - 0.03436)%R.
Proof. exact @invsqrt_lo_sharp. Qed.
Print Assumptions C114_invsqrt_lo_bound_sharp.

(** C20: 1.125. *)
Theorem C114_inv_bound_sharp : forall {E : Env}, exists x, fin x /\ (bpow radix2 (-126) <= val x)%R /\ fin (F32_inv x) /\
  (val (F32_inv x) * val x = 1.125)%R.
Proof. exact @inv_sharp. Qed.
Print Assumptions C114_inv_bound_sharp.

(** C22: 1.5e-5. *)
Theorem C114_recip_bound_sharp : forall {E : Env}, exists x, fin x /\ (bpow radix2 (-126) <= val x)%R /\ fin (F32_recip x) /\
  (0.000009489 <= Rabs (val x * val (F32_recip x) - 1))%R.
Proof. exact @recip_sharp. Qed.
Print Assumptions C114_recip_bound_sharp.

(** The input used for atan, 9.48144817. *)
Example C114_case : to_bits (@F32_atan env_debug (from_bits 0x4117B403)) = 0x3FBBF93D /\
  to_bits (@F32_cos env_debug (from_bits 0x3FE1CA49)) = 0xBE437B28.
Proof. split; vm_compute; reflexivity. Qed.
