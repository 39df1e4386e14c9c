(** * Properties C22-C25: reciprocal, hypotenuse, multiply-add *)

From Coq Require Import ZArith Reals Bool List Lia Lra.
From Flocq Require Import Core IEEE754.Binary IEEE754.Bits.
From Verif Require Import Base Spec Float TestEnv F32Lemmas BitLemmas P_Trunc P_Floor Literals ErrLemmas P_RoundEdge
  NanLemmas P_Euclid P_Roots P_InvSqrt P_Recip.
Open Scope Z_scope.

(** ** C22 *)

Theorem C22_recip_accuracy : forall {E : Env} x, fin x ->
  (bpow radix2 (-126) <= Rabs (val x) <= bpow radix2 125)%R ->
  fin (F32_recip x) /\ (Rabs (val x * val (F32_recip x) - 1) <= 1.5e-5)%R.
Proof. exact @recip_accuracy. Qed.
Print Assumptions C22_recip_accuracy.

(** recip(-3.0) = -0.3333325. *)
Example C22_case : let x := from_bits 0xC0400000 in
  fin x /\ (bpow radix2 (-126) <= Rabs (val x) <= bpow radix2 125)%R /\
  to_bits (@F32_recip env_debug x) = 0xBEAAAA8F.
Proof.
  intros x. split; [reflexivity|]. split; [|vm_compute; reflexivity].
  unfold x. lit 0xC0400000. rewrite Rabs_left by (bpow_lit; lra). bpow_lit. lra.
Qed.

(** ** C23 *)

(** recip(0) = inf, recip(-0) = -inf, but recip(inf) = -inf, recip(-inf) = inf
    and recip(f32::MAX) = -inf. *)
Theorem C23_recip_edges : forall {E : Env},
  F32_recip (f32_zero false) = f32_inf false /\
  F32_recip (f32_zero true) = f32_inf true /\
  F32_recip (f32_inf false) = f32_inf true /\
  F32_recip (f32_inf true) = f32_inf false /\
  F32_recip (from_bits 0x7F7FFFFF) = f32_inf true.
Proof. exact @recip_edges. Qed.
Print Assumptions C23_recip_edges.

Theorem C23_recip_nan : forall {E : Env} x, nan x -> nan (F32_recip x).
Proof. exact @recip_nan. Qed.
Print Assumptions C23_recip_nan.

Theorem C23_recip_odd : forall {E : Env} x, is_nan x = false -> feq x F32_ZERO = false ->
  (nan (F32_recip x) /\ nan (F32_recip (fneg x))) \/ F32_recip (fneg x) = fneg (F32_recip x).
Proof. exact @recip_odd. Qed.
Print Assumptions C23_recip_odd.

Example C23_case : is_nan (from_bits 0x40400000) = false /\ feq (from_bits 0x40400000) F32_ZERO = false /\
  to_bits (@F32_recip env_debug (from_bits 0x40400000)) = 0x3EAAAA8F.
Proof. repeat split; vm_compute; reflexivity. Qed.

(** "recip(x) approximates 1/x" fails for large finite x. *)
Theorem C23_recip_large_refuted : forall {E : Env}, exists x, fin x /\ (bpow radix2 127 < val x)%R /\
  F32_recip x = f32_inf true.
Proof. exact @recip_large_wrong. Qed.
Print Assumptions C23_recip_large_refuted.

(** ** C24 *)

Theorem C24_hypot_accuracy : forall {E : Env} a b, fin a -> fin b ->
  (bpow radix2 (-126) <= val a * val a <= bpow radix2 125 \/ val a = 0)%R ->
  (bpow radix2 (-126) <= val b * val b <= bpow radix2 125 \/ val b = 0)%R ->
  (val a <> 0 \/ val b <> 0)%R ->
  let h := sqrt (val a * val a + val b * val b) in
  exists z, F32_hypot a b = Ok z /\ normal_pos z /\
    ((1 - bpow radix2 (-22)) * h <= val z <= 1.0607 * h)%R.
Proof. exact @hypot_accuracy. Qed.
Print Assumptions C24_hypot_accuracy.

Theorem C24_hypot_symmetry : forall {E : Env} a b, is_nan a = false -> is_nan b = false ->
  F32_hypot b a = F32_hypot a b /\ F32_hypot (fneg a) b = F32_hypot a b /\ F32_hypot a (fneg b) = F32_hypot a b.
Proof. exact @hypot_symmetry. Qed.
Print Assumptions C24_hypot_symmetry.

Theorem C24_hypot_total : forall {E : Env} a b, exists z, F32_hypot a b = Ok z.
Proof. exact @hypot_total. Qed.
Print Assumptions C24_hypot_total.

(** hypot(3, 4) = 5.125. *)
Example C24_case : let a := from_bits 0x40400000 in let b := from_bits 0x40800000 in
  fin a /\ fin b /\ (bpow radix2 (-126) <= val a * val a <= bpow radix2 125)%R /\
  (bpow radix2 (-126) <= val b * val b <= bpow radix2 125)%R /\ val a <> 0%R /\
  @F32_hypot env_debug a b = Ok (from_bits 0x40A40000).
Proof.
  intros a b. assert (Va : val a = 3%R) by (unfold a; lit 0x40400000; bpow_lit; lra).
  assert (Vb : val b = 4%R) by (unfold b; lit 0x40800000; bpow_lit; lra).
  rewrite Va, Vb. split; [reflexivity|]. split; [reflexivity|]. bpow_lit.
  split; [lra|]. split; [lra|]. split; [lra|]. apply ok_bits. vm_compute. reflexivity.
Qed.

(** ** C25 *)

(** Two roundings, not one. *)
Theorem C25_mul_add : forall {E : Env} x a b, fin x -> fin a -> fin b ->
  (Rabs (rnd (val x * val a)) < bpow radix2 128)%R ->
  (Rabs (rnd (rnd (val x * val a) + val b)) < bpow radix2 128)%R ->
  fin (F32_mul_add x a b) /\ val (F32_mul_add x a b) = rnd (rnd (val x * val a) + val b).
Proof. exact @mul_add_spec. Qed.
Print Assumptions C25_mul_add.

(** "mul_add is fused" fails. *)
Theorem C25_mul_add_fused_refuted : forall {E : Env}, exists x a b, fin x /\ fin a /\ fin b /\
  rnd (val x * val a + val b) = bpow radix2 (-24) /\ F32_mul_add x a b = f32_zero false.
Proof. exact @mul_add_not_fused. Qed.
Print Assumptions C25_mul_add_fused_refuted.

(** mul_add(2, 3, 1) = 7. *)
Example C25_case : fin (from_bits 0x40000000) /\ fin (from_bits 0x40400000) /\ fin F32_ONE /\
  to_bits (@F32_mul_add env_debug (from_bits 0x40000000) (from_bits 0x40400000) F32_ONE) = 0x40E00000 /\
  (Rabs (rnd (val (from_bits 0x40000000) * val (from_bits 0x40400000))) < bpow radix2 128)%R.
Proof.
  split; [reflexivity|]. split; [reflexivity|]. split; [reflexivity|]. split; [vm_compute; reflexivity|].
  apply (small_lt_128 3); [lia|]. lit 0x40000000. lit 0x40400000. bpow_lit. apply Rabs_le. lra.
Qed.
