(** * Proofs: inputs on which the error bounds are nearly reached *)

From Coq Require Import ZArith Reals Bool List Lia Lra Psatz.
From Flocq Require Import Core IEEE754.BinarySingleNaN IEEE754.Binary IEEE754.Bits.
From Interval Require Import Tactic.
From Verif Require Import Base Spec Float F32Lemmas BitLemmas Literals ErrLemmas P_RoundEdge.
Open Scope Z_scope.

Ltac num := bpow_lit; interval with (i_prec 100).
Ltac conj_num := repeat match goal with |- _ /\ _ => split end; first [reflexivity | num].

Lemma cos_sharp : forall {E : Env}, exists x, fin x /\ (Rabs (val x) <= 2)%R /\ fin (F32_cos x) /\
  (0.00109 <= Rabs (val (F32_cos x) - cos (val x)))%R.
Proof.
  intros E. exists (from_bits 0x3FE1CA49).
  assert (R : F32_cos (from_bits 0x3FE1CA49) = from_bits 0xBE437B28) by (apply to_bits_inj; vm_compute; reflexivity).
  rewrite R. lit 0x3FE1CA49. lit 0xBE437B28. conj_num.
Qed.

Lemma sin_sharp : forall {E : Env}, exists x, fin x /\ (Rabs (val x) <= 4)%R /\ fin (F32_sin x) /\
  (0.00109 <= Rabs (val (F32_sin x) - sin (val x)))%R.
Proof.
  intros E. exists (from_bits 0x40556D12).
  assert (R : F32_sin (from_bits 0x40556D12) = from_bits 0xBE437B28) by (apply to_bits_inj; vm_compute; reflexivity).
  rewrite R. lit 0x40556D12. lit 0xBE437B28. conj_num.
Qed.

Lemma tan_sharp : forall {E : Env}, exists x, fin x /\ (Rabs (val x) <= 1.2)%R /\ fin (F32_tan x) /\
  (0.00568 <= Rabs (val (F32_tan x) - tan (val x)))%R.
Proof.
  intros E. exists (from_bits 0x3F999983).
  assert (R : F32_tan (from_bits 0x3F999983) = from_bits 0x4024FB05) by (apply to_bits_inj; vm_compute; reflexivity).
  rewrite R. lit 0x3F999983. lit 0x4024FB05. conj_num.
Qed.

Lemma atan_sharp : forall {E : Env}, exists x, fin x /\ (Rabs (val x) <= 10)%R /\ fin (F32_atan x) /\
  (0.002827 <= Rabs (val (F32_atan x) - atan (val x)))%R.
Proof.
  intros E. exists (from_bits 0x4117B403).
  assert (R : F32_atan (from_bits 0x4117B403) = from_bits 0x3FBBF93D) by (apply to_bits_inj; vm_compute; reflexivity).
  rewrite R. lit 0x4117B403. lit 0x3FBBF93D. conj_num.
Qed.

Lemma asin_sharp : forall {E : Env}, exists x z, fin x /\ (Rabs (val x) <= 1)%R /\ F32_asin x = Ok z /\ fin z /\
  (0.01797 <= Rabs (val z - asin (val x)))%R.
Proof.
  intros E. exists (from_bits 0x3F180813), (from_bits 0x3F27622A).
  assert (R : F32_asin (from_bits 0x3F180813) = Ok (from_bits 0x3F27622A)) by (apply ok_bits; vm_compute; reflexivity).
  rewrite R. lit 0x3F180813. lit 0x3F27622A. rewrite asin_atan by (bpow_lit; lra). unfold Rsqr. conj_num.
Qed.

Lemma acos_sharp : forall {E : Env}, exists x z, fin x /\ (Rabs (val x) <= 1)%R /\ F32_acos x = Ok z /\ fin z /\
  (0.02896 <= Rabs (val z - acos (val x)))%R.
Proof.
  intros E. exists (from_bits 0x3F3504F3), (from_bits 0x3F5079E8).
  assert (R : F32_acos (from_bits 0x3F3504F3) = Ok (from_bits 0x3F5079E8)) by (apply ok_bits; vm_compute; reflexivity).
  rewrite R. lit 0x3F3504F3. lit 0x3F5079E8. rewrite acos_atan by (bpow_lit; lra). unfold Rsqr. conj_num.
Qed.

Lemma exp_pos_sharp : forall {E : Env}, exists x z, fin x /\ (0 <= val x <= 88.72283172607421875)%R /\ F32_exp x = Ok z /\ fin z /\
  (0.000755 * exp (val x) <= Rabs (val z - exp (val x)))%R.
Proof.
  intros E. exists (from_bits 0x42B17215), (from_bits 0x7F7FCCFE).
  assert (R : F32_exp (from_bits 0x42B17215) = Ok (from_bits 0x7F7FCCFE)) by (destruct E as [oc da n1 n2 n3 n4 n5 n6 ss]; destruct da; apply ok_bits; vm_compute; reflexivity).
  rewrite R. lit 0x42B17215. lit 0x7F7FCCFE. conj_num.
Qed.

Lemma exp_neg_sharp : forall {E : Env}, exists x z, fin x /\ (- 87.3365478515625 <= val x <= 0)%R /\ F32_exp x = Ok z /\ fin z /\
  (0.00239 * exp (val x) <= Rabs (val z - exp (val x)))%R.
Proof.
  intros E. exists (from_bits 0xC2ABE687), (from_bits 0x01804E61).
  assert (R : F32_exp (from_bits 0xC2ABE687) = Ok (from_bits 0x01804E61)) by (destruct E as [oc da n1 n2 n3 n4 n5 n6 ss]; destruct da; apply ok_bits; vm_compute; reflexivity).
  rewrite R. lit 0xC2ABE687. lit 0x01804E61. conj_num.
Qed.

Lemma cosh_sharp : forall {E : Env}, exists x z, fin x /\ (Rabs (val x) <= 88)%R /\ F32_cosh x = Ok z /\ fin z /\
  (0.0003778 * exp (val x) <= Rabs (val z - (exp (val x) + exp (- val x)) / 2))%R.
Proof.
  intros E. exists (from_bits 0x42AEAC4E), (from_bits 0x7DFFCDAE).
  assert (R : F32_cosh (from_bits 0x42AEAC4E) = Ok (from_bits 0x7DFFCDAE)) by (destruct E as [oc da n1 n2 n3 n4 n5 n6 ss]; destruct da; apply ok_bits; vm_compute; reflexivity).
  rewrite R. lit 0x42AEAC4E. lit 0x7DFFCDAE. conj_num.
Qed.

Lemma ln_ge1_sharp : forall {E : Env}, exists x, fin x /\ (1 <= val x)%R /\ fin (F32_ln x) /\
  (0.000069 <= Rabs (val (F32_ln x) - ln (val x)))%R.
Proof.
  intros E. exists (from_bits 0x73F2BDB3).
  assert (R : F32_ln (from_bits 0x73F2BDB3) = from_bits 0x42917466) by (apply to_bits_inj; vm_compute; reflexivity).
  rewrite R. lit 0x73F2BDB3. lit 0x42917466. conj_num.
Qed.

Lemma ln_lt1_sharp : forall {E : Env}, exists x, fin x /\ (bpow radix2 (-126) <= val x < 1)%R /\ fin (F32_ln x) /\
  (val (F32_ln x) - ln (val x) <= - 0.11777)%R.
Proof.
  intros E. exists (from_bits 0x0B4008CD).
  assert (R : F32_ln (from_bits 0x0B4008CD) = from_bits 0xC290FC34) by (apply to_bits_inj; vm_compute; reflexivity).
  rewrite R. lit 0x0B4008CD. lit 0xC290FC34. conj_num.
Qed.

Lemma log2_sharp : forall {E : Env}, exists x, fin x /\ (1 <= val x)%R /\ fin (F32_log2 x) /\
  (0.0001037 <= Rabs (val (F32_log2 x) - ln (val x) / ln 2))%R.
Proof.
  intros E. exists (from_bits 0x7BD07BA4).
  assert (R : F32_log2 (from_bits 0x7BD07BA4) = from_bits 0x42F16849) by (apply to_bits_inj; vm_compute; reflexivity).
  rewrite R. lit 0x7BD07BA4. lit 0x42F16849. conj_num.
Qed.

Lemma log2_lt1_sharp : forall {E : Env}, exists x, fin x /\ (bpow radix2 (-126) <= val x < 1)%R /\ fin (F32_log2 x) /\
  (val (F32_log2 x) - ln (val x) / ln 2 <= - 0.1699)%R.
Proof.
  intros E. exists (from_bits 0x0B401C4E).
  assert (R : F32_log2 (from_bits 0x0B401C4E) = from_bits 0xC2D12B12) by (apply to_bits_inj; vm_compute; reflexivity).
  rewrite R. lit 0x0B401C4E. lit 0xC2D12B12. conj_num.
Qed.

Lemma log10_sharp : forall {E : Env}, exists x, fin x /\ (1 <= val x)%R /\ fin (F32_log10 x) /\
  (0.0000324 <= Rabs (val (F32_log10 x) - ln (val x) / ln 10))%R.
Proof.
  intros E. exists (from_bits 0x7928FA4C).
  assert (R : F32_log10 (from_bits 0x7928FA4C) = from_bits 0x420AF4D7) by (apply to_bits_inj; vm_compute; reflexivity).
  rewrite R. lit 0x7928FA4C. lit 0x420AF4D7. conj_num.
Qed.

Lemma log10_lt1_sharp : forall {E : Env}, exists x, fin x /\ (bpow radix2 (-126) <= val x < 1)%R /\ fin (F32_log10 x) /\
  (val (F32_log10 x) - ln (val x) / ln 10 <= - 0.05115)%R.
Proof.
  intros E. exists (from_bits 0x05C0104C).
  assert (R : F32_log10 (from_bits 0x05C0104C) = from_bits 0xC20B2D76) by (apply to_bits_inj; vm_compute; reflexivity).
  rewrite R. lit 0x05C0104C. lit 0xC20B2D76. conj_num.
Qed.

Lemma sqrt_hi_sharp : forall {E : Env}, exists x z, fin x /\ (bpow radix2 (-126) <= val x)%R /\ F32_sqrt x = Ok z /\ fin z /\
  (1.06066 * sqrt (val x) <= val z)%R.
Proof.
  intros E. exists (from_bits 0x3F000000), (from_bits 0x3F400000).
  assert (R : F32_sqrt (from_bits 0x3F000000) = Ok (from_bits 0x3F400000)) by (apply ok_bits; vm_compute; reflexivity).
  rewrite R. lit 0x3F000000. lit 0x3F400000. conj_num.
Qed.

Lemma sqrt_lo_sharp : forall {E : Env}, exists x z, fin x /\ (bpow radix2 (-126) <= val x)%R /\ F32_sqrt x = Ok z /\ fin z /\
  (val z <= (1 - 0.99999 * bpow radix2 (-24)) * sqrt (val x))%R.
Proof.
  intros E. exists (from_bits 0x3F800001), (from_bits 0x3F800000).
  assert (R : F32_sqrt (from_bits 0x3F800001) = Ok (from_bits 0x3F800000)) by (apply ok_bits; vm_compute; reflexivity).
  rewrite R. lit 0x3F800001. lit 0x3F800000. conj_num.
Qed.

Lemma invsqrt_hi_sharp : forall {E : Env}, exists x z, fin x /\ (bpow radix2 (-126) <= val x)%R /\ F32_invsqrt x = Ok z /\ fin z /\
  (0.03397 <= val z * sqrt (val x) - 1)%R.
Proof.
  intros E. exists (from_bits 0x3F24E705), (from_bits 0x3FA4E704).
  assert (R : F32_invsqrt (from_bits 0x3F24E705) = Ok (from_bits 0x3FA4E704)) by (apply ok_bits; vm_compute; reflexivity).
  rewrite R. lit 0x3F24E705. lit 0x3FA4E704. conj_num.
Qed.

Lemma invsqrt_lo_sharp : forall {E : Env}, exists x z, fin x /\ (bpow radix2 (-126) <= val x)%R /\ F32_invsqrt x = Ok z /\ fin z /\
  (val z * sqrt (val x) - 1 <= - 0.03436)%R.
Proof.
  intros E. exists (from_bits 0x3F6EB50C), (from_bits 0x3F800000).
  assert (R : F32_invsqrt (from_bits 0x3F6EB50C) = Ok (from_bits 0x3F800000)) by (apply ok_bits; vm_compute; reflexivity).
  rewrite R. lit 0x3F6EB50C. lit 0x3F800000. conj_num.
Qed.

Lemma inv_sharp : forall {E : Env}, exists x, fin x /\ (bpow radix2 (-126) <= val x)%R /\ fin (F32_inv x) /\
  (val (F32_inv x) * val x = 1.125)%R.
Proof.
  intros E. exists (from_bits 0x3F400000).
  assert (R : F32_inv (from_bits 0x3F400000) = from_bits 0x3FC00000) by (apply to_bits_inj; vm_compute; reflexivity).
  rewrite R. lit 0x3F400000. lit 0x3FC00000. bpow_lit.
  refine (conj eq_refl (conj _ (conj eq_refl _))); lra.
Qed.

Lemma recip_sharp : forall {E : Env}, exists x, fin x /\ (bpow radix2 (-126) <= val x)%R /\ fin (F32_recip x) /\
  (0.000009489 <= Rabs (val x * val (F32_recip x) - 1))%R.
Proof.
  intros E. exists (from_bits 0x3E3E37B0).
  assert (R : F32_recip (from_bits 0x3E3E37B0) = from_bits 0x40AC43A9) by (apply to_bits_inj; vm_compute; reflexivity).
  rewrite R. lit 0x3E3E37B0. lit 0x40AC43A9. conj_num.
Qed.

