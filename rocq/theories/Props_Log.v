(** * Properties C30-C33: logarithms *)

From Coq Require Import ZArith Reals Bool List Lia Lra.
From Flocq Require Import Core IEEE754.Binary IEEE754.Bits.
From Verif Require Import Base Spec Float TestEnv F32Lemmas BitLemmas Literals ErrLemmas
  NanLemmas P_RoundEdge P_Ln.
Open Scope Z_scope.

(** ** C30 *)

Theorem C30_ln_accuracy_ge1 : forall {E : Env} x, fin x -> (1 <= val x)%R ->
  fin (F32_ln x) /\ (Rabs (val (F32_ln x) - ln (val x)) <= 0.0000761)%R.
Proof. exact @ln_acc_ge1. Qed.
Print Assumptions C30_ln_accuracy_ge1.

(** Below 1 the code takes -ln of the crude bit-trick reciprocal: the result is too low by up to ln(9/8). *)
Theorem C30_ln_accuracy_lt1 : forall {E : Env} x, normal_pos x -> (val x < 1)%R ->
  fin (F32_ln x) /\ (- 0.11786 <= val (F32_ln x) - ln (val x) <= 0.0000761)%R.
Proof. exact @ln_acc_lt1. Qed.
Print Assumptions C30_ln_accuracy_lt1.

(** So "ln is accurate to 1e-4 (or even 0.1) everywhere" is false. *)
Theorem C30_ln_uniform_accuracy_refuted : forall {E : Env}, exists x, fin x /\ val x = 0.75%R /\ fin (F32_ln x) /\
  (val (F32_ln x) - ln (val x) < - 0.117)%R.
Proof. exact @ln_small_error. Qed.
Print Assumptions C30_ln_uniform_accuracy_refuted.

(** ln(10) = 2.3026285 (true value 2.3025851); ln(0.1) = -2.415954 (true value -2.3025851). *)
Example C30_case : let x := from_bits 0x41200000 in
  fin x /\ val x = 10%R /\ @F32_ln env_debug x = from_bits 0x40135E44 /\
  @F32_ln env_debug (from_bits 0x3DCCCCCD) = from_bits 0xC01A9EFE.
Proof. intros x. unfold x. lit 0x41200000. split; [reflexivity|]. split; [bpow_lit; lra|]. split; apply to_bits_inj; vm_compute; reflexivity. Qed.

(** ** C31 *)

Theorem C31_ln_negative : forall {E : Env} x, sign_bit x = true -> nan (F32_ln x).
Proof. exact @ln_negative. Qed.
Print Assumptions C31_ln_negative.

Theorem C31_ln_nan : forall {E : Env} x, nan x -> nan (F32_ln x).
Proof. exact @ln_nan. Qed.
Print Assumptions C31_ln_nan.

Theorem C31_ln_inf : forall {E : Env}, nan (F32_ln (f32_inf false)).
Proof. exact @ln_inf. Qed.
Print Assumptions C31_ln_inf.

Theorem C31_ln_zero : forall {E : Env}, F32_ln (f32_zero false) = from_bits 0xC2B00F3C.
Proof. exact @ln_zero. Qed.
Print Assumptions C31_ln_zero.

(** On zero and every subnormal the result saturates between -88.03 and -87.33. *)
Theorem C31_ln_subnormal : forall {E : Env} x, fin x -> sign_bit x = false -> (val x < bpow radix2 (-126))%R ->
  fin (F32_ln x) /\ (- 88.03 <= val (F32_ln x) <= - 87.33)%R.
Proof. exact @ln_subnormal. Qed.
Print Assumptions C31_ln_subnormal.

(** The accuracy bound of C30 does not extend to subnormals: the error at 2^-149 exceeds 15. *)
Theorem C31_ln_subnormal_accuracy_refuted : forall {E : Env}, exists x, fin x /\ (0 < val x)%R /\ fin (F32_ln x) /\
  (val (F32_ln x) - ln (val x) > 15)%R.
Proof. exact @ln_subnormal_wrong. Qed.
Print Assumptions C31_ln_subnormal_accuracy_refuted.

(** ln(-1) is NaN; ln(2^-149) = -88.02963 (true value -103.27893). *)
Example C31_case : sign_bit (from_bits 0xBF800000) = true /\ is_nan (@F32_ln env_debug (from_bits 0xBF800000)) = true /\
  fin (from_bits 1) /\ @F32_ln env_debug (from_bits 1) = from_bits 0xC2B00F2C.
Proof. split; [vm_compute; reflexivity|]. split; [vm_compute; reflexivity|]. split; [reflexivity|]. apply to_bits_inj; vm_compute; reflexivity. Qed.

(** ** C32 *)

Theorem C32_log2_accuracy_ge1 : forall {E : Env} x, fin x -> (1 <= val x)%R ->
  fin (F32_log2 x) /\ (Rabs (val (F32_log2 x) - ln (val x) / ln 2) <= 0.00012)%R.
Proof. exact @log2_acc_ge1. Qed.
Print Assumptions C32_log2_accuracy_ge1.

Theorem C32_log10_accuracy_ge1 : forall {E : Env} x, fin x -> (1 <= val x)%R ->
  fin (F32_log10 x) /\ (Rabs (val (F32_log10 x) - ln (val x) / ln 10) <= 0.000044)%R.
Proof. exact @log10_acc_ge1. Qed.
Print Assumptions C32_log10_accuracy_ge1.

Theorem C32_log2_accuracy_lt1 : forall {E : Env} x, normal_pos x -> (val x < 1)%R ->
  fin (F32_log2 x) /\ (- 0.1701 <= val (F32_log2 x) - ln (val x) / ln 2 <= 0.00012)%R.
Proof. exact @log2_acc_lt1. Qed.
Print Assumptions C32_log2_accuracy_lt1.

Theorem C32_log10_accuracy_lt1 : forall {E : Env} x, normal_pos x -> (val x < 1)%R ->
  fin (F32_log10 x) /\ (- 0.0512 <= val (F32_log10 x) - ln (val x) / ln 10 <= 0.000044)%R.
Proof. exact @log10_acc_lt1. Qed.
Print Assumptions C32_log10_accuracy_lt1.

(** log2(10) = 3.3219907 (true value 3.3219281); log10(50) = 1.698950 (true value 1.698970). *)
Example C32_case : @F32_log2 env_debug (from_bits 0x41200000) = from_bits 0x40549B7F /\
  @F32_log10 env_debug (from_bits 0x42480000) = from_bits 0x3FD9772C.
Proof. split; apply to_bits_inj; vm_compute; reflexivity. Qed.

(** ** C33 *)

Theorem C33_log_accuracy : forall {E : Env} x b, fin x -> fin b -> (1 <= val x)%R -> (2 <= val b)%R ->
  fin (F32_log x b) /\
  (Rabs (val (F32_log x b) - ln (val x) / ln (val b)) <= 0.00012 * (1 + ln (val x) / ln (val b)))%R.
Proof. exact @log_acc. Qed.
Print Assumptions C33_log_accuracy.

(** log(81, 3) is within the bound of 4. *)
Example C33_case : let r := @F32_log env_debug (from_bits 0x42A20000) (from_bits 0x40400000) in
  fin r /\ (Rabs (val r - 4) <= 0.0006)%R.
Proof.
  assert (K : @F32_log env_debug (from_bits 0x42A20000) (from_bits 0x40400000) = from_bits 0x408000E2) by (apply to_bits_inj; vm_compute; reflexivity).
  cbv zeta. rewrite K. lit 0x408000E2. split; [reflexivity|]. apply Rabs_le. bpow_lit. lra.
Qed.
