(** * Properties C97-C100: sign and order of ln, exp, cosh, powf *)

From Coq Require Import ZArith Reals Bool List Lia Lra.
From Flocq Require Import Core IEEE754.Binary IEEE754.Bits.
From Verif Require Import Base Spec Float TestEnv F32Lemmas BitLemmas Literals ErrLemmas
  NanLemmas P_RoundEdge P_Order P_Order2.
Open Scope Z_scope.

(** ** C97 *)

(** ln, log2 and log10 are finite on every positive argument and have the right sign: positive
    exactly above 1, negative exactly at and below 1 - 2^-23.  In between, that is at 1 and at the
    float just below it, the result is zero. *)
Theorem C97_ln_sign : forall {E : Env} x, fin x -> (0 < val x)%R -> fin (F32_ln x) /\
  ((0 < val (F32_ln x))%R <-> (1 < val x)%R) /\ ((val (F32_ln x) < 0)%R <-> (val x <= 1 - / 8388608)%R).
Proof. exact @ln_sign_iff. Qed.
Print Assumptions C97_ln_sign.

Theorem C97_log2_sign : forall {E : Env} x, fin x -> (0 < val x)%R -> fin (F32_log2 x) /\
  ((0 < val (F32_log2 x))%R <-> (1 < val x)%R) /\ ((val (F32_log2 x) < 0)%R <-> (val x <= 1 - / 8388608)%R).
Proof. exact @log2_sign_iff. Qed.
Print Assumptions C97_log2_sign.

Theorem C97_log10_sign : forall {E : Env} x, fin x -> (0 < val x)%R -> fin (F32_log10 x) /\
  ((0 < val (F32_log10 x))%R <-> (1 < val x)%R) /\ ((val (F32_log10 x) < 0)%R <-> (val x <= 1 - / 8388608)%R).
Proof. exact @log10_sign_iff. Qed.
Print Assumptions C97_log10_sign.

(** A nonzero logarithm is at least 4e-5 in magnitude: there is a jump at 1. *)
Theorem C97_ln_jump : forall {E : Env} x, fin x -> (0 < val x)%R ->
  ((/ 8388608 <= val x - 1)%R /\ fin (F32_ln x) /\ (0.00004 <= val (F32_ln x) <= 88.8)%R) \/
  ((Rabs (val x - 1) < / 8388608)%R /\ F32_ln x = F32_ZERO) \/
  ((/ 8388608 <= 1 - val x)%R /\ fin (F32_ln x) /\ (- 88.8 <= val (F32_ln x) <= - 0.00004)%R).
Proof. exact @ln_sign. Qed.
Print Assumptions C97_ln_jump.

(** "ln is monotone" is false, even above 1. *)
Theorem C97_ln_monotone_refuted : forall {E : Env}, exists x1 x2, fin x1 /\ fin x2 /\ (1 <= val x1 < val x2)%R /\ (val (F32_ln x2) < val (F32_ln x1))%R.
Proof. exact @ln_drop. Qed.
Print Assumptions C97_ln_monotone_refuted.

(** ln of the neighbours of 1: 6.1e-5 above, 0 just below, -6.1e-5 at 1 - 2^-23. *)
Example C97_case : @F32_ln env_debug (from_bits 0x3F800001) = from_bits 0x387F0000 /\
  @F32_ln env_debug (from_bits 0x3F7FFFFF) = F32_ZERO /\ @F32_ln env_debug (from_bits 0x3F7FFFFE) = from_bits 0xB87F0000.
Proof. repeat split; apply to_bits_inj; vm_compute; reflexivity. Qed.

(** ** C98 *)

(** On nonnegative arguments exp is monotone, except for steps from {1 - 2^-24, 1} to above 1, where
    the shortcut returns the constant E; there it drops by less than a factor 1.00002. *)
Theorem C98_exp_monotone : forall {E : Env} x1 x2, fin x1 -> fin x2 -> (0 <= val x1 <= val x2)%R -> (val x2 <= 88.72283172607421875)%R ->
  exists r1 r2, F32_exp x1 = Ok r1 /\ F32_exp x2 = Ok r2 /\ fin r1 /\ fin r2 /\
   (~ ((1 - / 16777216 <= val x1 <= 1)%R /\ (1 < val x2)%R) -> (val r1 <= val r2)%R) /\
   (val r1 <= 1.00002 * val r2)%R.
Proof. exact @exp_mono. Qed.
Print Assumptions C98_exp_monotone.

(** The exception is real: exp(1) > exp(1 + 2^-23). *)
Theorem C98_exp_monotone_refuted : forall {E : Env}, exists x1 x2 r1 r2, fin x1 /\ fin x2 /\ (0 <= val x1 < val x2)%R /\
  F32_exp x1 = Ok r1 /\ F32_exp x2 = Ok r2 /\ fin r1 /\ fin r2 /\ (1.00001 * val r2 < val r1)%R.
Proof. exact @exp_drop. Qed.
Print Assumptions C98_exp_monotone_refuted.

Theorem C98_exp_monotone_negative_refuted : forall {E : Env}, exists x1 x2 r1 r2, fin x1 /\ fin x2 /\ (-1.1 <= val x1 < val x2)%R /\ (val x2 <= 0)%R /\
  F32_exp x1 = Ok r1 /\ F32_exp x2 = Ok r2 /\ fin r1 /\ fin r2 /\ (1.00002 * val r2 < val r1)%R.
Proof. exact @exp_drop_neg. Qed.
Print Assumptions C98_exp_monotone_negative_refuted.

(** exp(2) < exp(2 + 2^-22). *)
Example C98_case : @F32_exp env_debug (from_bits 0x40000000) = Ok (from_bits 0x40EC58B6) /\
  @F32_exp env_debug (from_bits 0x40000001) = Ok (from_bits 0x40EC58B8).
Proof. split; apply ok_bits; vm_compute; reflexivity. Qed.

(** ** C99 *)

Theorem C99_exp_ge_one : forall {E : Env} x, fin x -> (0 <= val x <= 88.72283172607421875)%R ->
  exists r, F32_exp x = Ok r /\ fin r /\ (1 <= val r)%R.
Proof. exact @exp_ge1. Qed.
Print Assumptions C99_exp_ge_one.

Theorem C99_exp_le_one : forall {E : Env} x, fin x -> (val x <= 0)%R ->
  exists r, F32_exp x = Ok r /\ fin r /\ (0 <= val r <= 1)%R.
Proof. exact @exp_le1. Qed.
Print Assumptions C99_exp_le_one.

Theorem C99_cosh_ge_one : forall {E : Env} x, fin x -> (Rabs (val x) <= 88.72283172607421875)%R ->
  exists r, F32_cosh x = Ok r /\ fin r /\ (1 <= val r)%R.
Proof. exact @cosh_ge1. Qed.
Print Assumptions C99_cosh_ge_one.

(** cosh is not monotone on nonnegative arguments: it drops after 1. *)
Theorem C99_cosh_monotone_refuted : forall {E : Env}, exists x1 x2 r1 r2, fin x1 /\ fin x2 /\ (0 <= val x1 < val x2)%R /\
  F32_cosh x1 = Ok r1 /\ F32_cosh x2 = Ok r2 /\ fin r1 /\ fin r2 /\ (1.00001 * val r2 < val r1)%R.
Proof. exact @cosh_drop. Qed.
Print Assumptions C99_cosh_monotone_refuted.

(** At 1.5 * 2^-25 the two exponentials round in opposite directions, their exact sum is below 2,
    and the rounded sum is 2 again. *)
Example C99_case : @F32_exp env_debug (from_bits 0x33400000) = Ok F32_ONE /\
  @F32_exp env_debug (from_bits 0xB3400000) = Ok (from_bits 0x3F7FFFFF) /\
  @F32_cosh env_debug (from_bits 0x33400000) = Ok F32_ONE.
Proof. change F32_ONE with (from_bits 0x3F800000). repeat split; apply ok_bits; vm_compute; reflexivity. Qed.

(** ** C100 *)

(** powf stays on the right side of 1: base at least one and exponent nonpositive, or base at most one
    and exponent nonnegative, give a result in [0, 1], for every finite exponent. *)
Theorem C100_powf_le_one : forall {E : Env} x n, fin x -> (0 < val x)%R -> fin n ->
  ((1 <= val x)%R /\ (val n <= 0)%R) \/ ((val x <= 1)%R /\ (0 <= val n)%R) ->
  exists r, F32_powf x n = Ok r /\ fin r /\ (0 <= val r <= 1)%R.
Proof. exact @powf_le1. Qed.
Print Assumptions C100_powf_le_one.

Theorem C100_powf_ge_one : forall {E : Env} x n, fin x -> (1 <= val x)%R -> fin n -> (0 <= val n)%R ->
  (val n * (ln (val x) + 0.0000761) <= 88.72283172607421875)%R ->
  exists r, F32_powf x n = Ok r /\ fin r /\ (1 <= val r)%R.
Proof. exact @powf_ge1. Qed.
Print Assumptions C100_powf_ge_one.

Theorem C100_powf_monotone_exponent : forall {E : Env} x m n, fin x -> (1 <= val x)%R -> fin m -> fin n -> (0 <= val m <= val n)%R ->
  (val n * (ln (val x) + 0.0000761) <= 88.72283172607421875)%R ->
  exists a b, F32_powf x m = Ok a /\ F32_powf x n = Ok b /\ fin a /\ fin b /\ (val a <= 1.00002 * val b)%R.
Proof. exact @powf_mono. Qed.
Print Assumptions C100_powf_monotone_exponent.

(** 3^1.5 < 3^2. *)
Example C100_case : @F32_powf env_debug (from_bits 0x40400000) (from_bits 0x3FC00000) = Ok (from_bits 0x40A64573) /\
  @F32_powf env_debug (from_bits 0x40400000) (from_bits 0x40000000) = Ok (from_bits 0x410FFEBF).
Proof. split; apply ok_bits; vm_compute; reflexivity. Qed.
