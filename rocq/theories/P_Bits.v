(** * Proofs: bit transmutation, abs, copysign, signum *)

From Coq Require Import ZArith Reals Bool List Lia Lra.
From Flocq Require Import Core IEEE754.BinarySingleNaN IEEE754.Binary IEEE754.Bits.
From Verif Require Import Base Spec Float F32Lemmas BitLemmas.
Open Scope Z_scope.

Lemma bits_roundtrip : forall x b,
  0 <= to_bits x < 2 ^ 32 /\ from_bits (to_bits x) = x /\
  (0 <= b < 2 ^ 32 -> to_bits (from_bits b) = b).
Proof.
  intros x b. split; [apply to_bits_range|]. split; [apply from_to_bits|apply to_from_bits].
Qed.

Lemma bits_decode : forall b, 0 <= b < 2 ^ 32 ->
  (bexp b < 255 -> fin (from_bits b) /\ val (from_bits b) = bval b) /\
  (bexp b = 255 -> bman b = 0 -> from_bits b = f32_inf (bsign b =? 1)) /\
  (bexp b = 255 -> bman b <> 0 -> nan (from_bits b)).
Proof.
  intros b Hb. split; [|split].
  - intros He. apply val_from_bits; assumption.
  - intros He Hm. pose proof (inf_fields (from_bits b)) as I.
    rewrite to_from_bits, He, Hm in I by assumption. simpl in I.
    pose proof (sign_bit_bsign (from_bits b)) as S. rewrite to_from_bits in S by assumption.
    rewrite <- S. destruct (from_bits b); try discriminate I. reflexivity.
  - intros He Hm. unfold nan. rewrite nan_fields, to_from_bits, He by assumption.
    simpl. apply negb_true_iff, Z.eqb_neq. assumption.
Qed.

Lemma abs_spec : forall x,
  to_bits (F32_abs x) = to_bits x mod 2 ^ 31 /\
  val (F32_abs x) = Rabs (val x) /\
  is_finite (F32_abs x) = is_finite x /\ is_nan (F32_abs x) = is_nan x /\
  is_infinite (F32_abs x) = is_infinite x /\ sign_bit (F32_abs x) = false /\
  F32_abs (F32_abs x) = F32_abs x /\ F32_abs (fneg x) = F32_abs x.
Proof.
  intros x. split.
  { rewrite to_bits_abs. pose proof (bits_split _ (to_bits_range x)) as [S _].
    pose proof (bman_range (to_bits x)). pose proof (bexp_range (to_bits x)).
    apply Z.mod_unique with (bsign (to_bits x)); unfold mkbits; lia. }
  split; [apply abs_val|]. rewrite !abs_with_sign.
  destruct x; repeat split; reflexivity.
Qed.

Lemma copysign_spec : forall x s,
  to_bits (F32_copysign x s) = to_bits x mod 2 ^ 31 + (to_bits s / 2 ^ 31) * 2 ^ 31 /\
  F32_abs (F32_copysign x s) = F32_abs x /\
  sign_bit (F32_copysign x s) = sign_bit s /\
  Rabs (val (F32_copysign x s)) = Rabs (val x) /\
  (sign_bit s = sign_bit x -> F32_copysign x s = x) /\
  (sign_bit s <> sign_bit x -> F32_copysign x s = fneg x).
Proof.
  intros x s. split.
  { destruct (abs_spec x) as [A _]. rewrite <- A, to_bits_abs, to_bits_copysign.
    unfold mkbits. fold (bsign (to_bits s)). ring. }
  rewrite !abs_with_sign, !copysign_with_sign.
  split; [destruct x; reflexivity|]. split; [destruct x; reflexivity|].
  split.
  { rewrite with_sign_val, Rabs_mult, Rabs_Rabsolu. destruct (sign_bit s).
    - rewrite Rabs_left by lra. ring.
    - rewrite Rabs_R1. ring. }
  split; intros H; destruct x as [t|t|t pl Hp|t m e Hb];
    destruct (sign_bit s), t; try discriminate H; try reflexivity; exfalso; apply H; reflexivity.
Qed.

Lemma signum_spec : forall {E : Env} x,
  (nan x -> nan (F32_signum x)) /\
  (is_nan x = false -> sign_bit x = false -> F32_signum x = from_bits 0x3F800000) /\
  (is_nan x = false -> sign_bit x = true -> F32_signum x = from_bits 0xBF800000).
Proof.
  intros E x. unfold F32_signum. split; [|split].
  - intros H. rewrite H. unfold nan, f32_NAN. exact (proj2_sig nan_const).
  - intros H S. rewrite H, copysign_with_sign, S. reflexivity.
  - intros H S. rewrite H, copysign_with_sign, S. apply to_bits_inj. vm_compute. reflexivity.
Qed.
