(** * Properties C108-C110: order, idempotence and zero signs of floor, ceil, round, trunc *)

From Coq Require Import ZArith Reals Bool List Lia Lra.
From Flocq Require Import Core IEEE754.Binary IEEE754.Bits.
From Verif Require Import Base Spec SpecOps Float TestEnv F32Lemmas BitLemmas Literals P_RoundOrder.
Import ListNotations.
Open Scope Z_scope.

(** ** C108 *)

(** No argument, NaN and infinities included, gives these zeros. *)
Theorem C108_zero_signs : forall {E : Env} x,
  F32_floor x <> f32_zero true /\ F32_round x <> f32_zero true /\ F32_ceil x <> f32_zero false.
Proof. intros E x. exact (conj (floor_no_neg_zero x) (conj (round_no_neg_zero x) (ceil_no_pos_zero x))). Qed.
Print Assumptions C108_zero_signs.

(** "A zero is returned unchanged" is false of all three; trunc keeps it (C05). *)
Theorem C108_zero_unchanged_refuted : forall {E : Env},
  F32_floor (f32_zero true) = f32_zero false /\ F32_round (f32_zero true) = f32_zero false /\
  F32_ceil (f32_zero false) = f32_zero true.
Proof. exact @zeros_change. Qed.
Print Assumptions C108_zero_unchanged_refuted.

(** floor(0.25) = +0, ceil(-0.25) = -0, round(-0.25) = +0, trunc(-0.25) = -0. *)
Example C108_case : map to_bits [@F32_floor env_debug (from_bits 0x3E800000); @F32_ceil env_debug (from_bits 0xBE800000);
  @F32_round env_debug (from_bits 0xBE800000); F32_trunc (from_bits 0xBE800000)] = [0; 0x80000000; 0; 0x80000000].
Proof. vm_compute. reflexivity. Qed.

(** ** C109 *)

(** [fle] is false on NaN; the infinities and the saturated ranges are included. *)
Theorem C109_monotone : forall {E : Env} x y, fle x y = true ->
  fle (F32_floor x) (F32_floor y) = true /\ fle (F32_ceil x) (F32_ceil y) = true /\
  fle (F32_round x) (F32_round y) = true /\ fle (F32_trunc x) (F32_trunc y) = true.
Proof. intros E x y H. exact (conj (floor_mono x y H) (conj (ceil_mono x y H) (conj (round_mono x y H) (trunc_mono x y H)))). Qed.
Print Assumptions C109_monotone.

(** fract is not: fract(0.75) = 0.75 and fract(1) = 0. *)
Theorem C109_fract_monotone_refuted : forall {E : Env}, exists x y a b, fle x y = true /\
  F32_fract x = Ok a /\ F32_fract y = Ok b /\ fle a b = false.
Proof. exact @fract_not_mono. Qed.
Print Assumptions C109_fract_monotone_refuted.

(** floor between 2.5 and 3e9: 2 and 2^31. *)
Example C109_case : fle (from_bits 0x40200000) (from_bits 0x4F32D05E) = true /\
  map to_bits [@F32_floor env_debug (from_bits 0x40200000); @F32_floor env_debug (from_bits 0x4F32D05E)] = [0x40000000; 0x4F000000].
Proof. split; vm_compute; reflexivity. Qed.

(** ** C110 *)

(** Bit for bit, for every float. *)
Theorem C110_idempotent : forall {E : Env} x,
  F32_floor (F32_floor x) = F32_floor x /\ F32_ceil (F32_ceil x) = F32_ceil x /\
  F32_round (F32_round x) = F32_round x /\ F32_trunc (F32_trunc x) = F32_trunc x.
Proof. intros E x. exact (conj (floor_idem x) (conj (ceil_idem x) (conj (round_idem x) (trunc_idem x)))). Qed.
Print Assumptions C110_idempotent.

Theorem C110_negation : forall {E : Env} x,
  F32_ceil (fneg x) = fneg (F32_floor x) /\ F32_floor (fneg x) = fneg (F32_ceil x) /\
  F32_trunc (fneg x) = fneg (F32_trunc x) /\
  (is_nan x = false -> val (F32_round (fneg x)) = (- val (F32_round x))%R).
Proof. exact @negation_all. Qed.
Print Assumptions C110_negation.

(** Bit for bit, round is not odd: the zero it returns is always positive. *)
Theorem C110_round_odd_refuted : forall {E : Env}, exists x, fin x /\ F32_round (fneg x) <> fneg (F32_round x).
Proof. exact @round_odd_refuted. Qed.
Print Assumptions C110_round_odd_refuted.

Theorem C110_around : forall {E : Env} x, fin x -> (Rabs (val x) <= bpow radix2 31)%R ->
  (val (F32_floor x) <= val x <= val (F32_ceil x))%R /\
  (val (F32_ceil x) - val (F32_floor x) <= 1)%R /\
  (val (F32_floor x) <= val (F32_trunc x) <= val (F32_ceil x))%R /\
  ((exists n, val x = IZR n) <-> val (F32_floor x) = val (F32_ceil x)) /\
  ((exists n, val x = IZR n) -> val (F32_floor x) = val x /\ val (F32_trunc x) = val x /\ val (F32_ceil x) = val x).
Proof. exact @floor_ceil_around. Qed.
Print Assumptions C110_around.

(** 8388609 is moved by round, once. *)
Example C110_case : to_bits (@F32_round env_debug (from_bits 0x4B000001)) = 0x4B000002 /\
  to_bits (@F32_round env_debug (from_bits 0x4B000002)) = 0x4B000002.
Proof. split; vm_compute; reflexivity. Qed.
