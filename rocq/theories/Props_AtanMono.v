(** * Property C125: atan, asin and acos keep the order up to a few roundings *)

From Coq Require Import ZArith Reals Bool List Lia Lra.
From Flocq Require Import Core IEEE754.Binary IEEE754.Bits.
From Verif Require Import Base Spec Float TestEnv F32Lemmas BitLemmas P_AtanMono.
Import ListNotations.
Open Scope Z_scope.

(** ** C125 *)

(** x <= y: the arctangent of x exceeds that of y by at most 15 half ulps, relative to the larger. *)
Theorem C125_atan : forall {E : Env} x y, fin x -> fin y -> (Rabs (val x) < bpow radix2 64)%R -> (Rabs (val y) < bpow radix2 64)%R -> (val x <= val y)%R ->
  fin (F32_atan x) /\ fin (F32_atan y) /\
  (val (F32_atan x) <= val (F32_atan y) + 15 / 16777216 * Rmax (Rabs (val (F32_atan x))) (Rabs (val (F32_atan y))))%R.
Proof. exact @atan_order. Qed.
Print Assumptions C125_atan.

(** Up to 2^-30, subnormals included, the order is kept exactly. *)
Theorem C125_atan_tiny : forall {E : Env} x y, fin x -> fin y -> (0 <= val x)%R -> (val x <= val y)%R -> (val y <= bpow radix2 (-30))%R ->
  fin (F32_atan x) /\ fin (F32_atan y) /\ (val (F32_atan x) <= val (F32_atan y))%R.
Proof. exact @atan_order_tiny. Qed.
Print Assumptions C125_atan_tiny.

(** In general it is not: 1.23578942 and the next float. *)
Theorem C125_atan_refuted : forall {E : Env}, exists x y, fin x /\ fin y /\ (0 < val x < val y)%R /\ (val (F32_atan y) < val (F32_atan x))%R.
Proof. exact @atan_order_broken. Qed.
Print Assumptions C125_atan_refuted.

(** The same for asin on [-1, 1], with no panic. *)
Theorem C125_asin : forall {E : Env} x y, fin x -> fin y -> (-1 <= val x)%R -> (val x <= val y)%R -> (val y <= 1)%R ->
  exists r s, F32_asin x = Ok r /\ F32_asin y = Ok s /\ fin r /\ fin s /\ (val r <= val s + 15 / 16777216 * Rmax (Rabs (val r)) (Rabs (val s)))%R.
Proof. exact @asin_order. Qed.
Print Assumptions C125_asin.

(** Not exactly: 0.768685997 and the next float. *)
Theorem C125_asin_refuted : forall {E : Env}, exists x y r s, fin x /\ fin y /\ (0 < val x < val y)%R /\ (val y < 1)%R /\ F32_asin x = Ok r /\ F32_asin y = Ok s /\ (val s < val r)%R.
Proof. exact @asin_order_broken. Qed.
Print Assumptions C125_asin_refuted.

(** acos reverses the order on [-1, 1] up to 28 / 2^24; arguments in (0, 2^-64] give NaN and are left out. *)
Theorem C125_acos : forall {E : Env} x y, fin x -> fin y -> (-1 <= val x)%R -> (val x <= val y)%R -> (val y <= 1)%R ->
  (val x = 0 \/ bpow radix2 (-64) < Rabs (val x))%R -> (val y = 0 \/ bpow radix2 (-64) < Rabs (val y))%R ->
  exists r s, F32_acos x = Ok r /\ F32_acos y = Ok s /\ fin r /\ fin s /\ (val s <= val r + 28 / 16777216)%R.
Proof. exact @acos_order. Qed.
Print Assumptions C125_acos.

(** Not exactly: 0.125000685 and the next float. *)
Theorem C125_acos_refuted : forall {E : Env}, exists x y r s, fin x /\ fin y /\ (0 < val x < val y)%R /\ (val y < 1)%R /\ F32_acos x = Ok r /\ F32_acos y = Ok s /\ (val r < val s)%R.
Proof. exact @acos_order_broken. Qed.
Print Assumptions C125_acos_refuted.

(** atan: 0.5, 1, 2 in order, then two neighbours the wrong way round, then the three least subnormals;
    asin: -1, 0.5, 1 in order, then two neighbours; acos: -1, -0.5, 0, 0.5, 1 falling from 3.1415927 to
    7.6e-20, then two neighbours. *)
Example C125_case :
  let rb := fun r => match r with Ok z => to_bits z | _ => -1 end in
  map (fun b => to_bits (@F32_atan env_debug (from_bits b))) [0x3F000000; 0x3F800000; 0x40000000; 0x3F9E2E59; 0x3F9E2E5A; 1; 2; 3] =
    [1055835260; 1061752795; 1066229436; 1063489072; 1063489068; 2; 2; 3] /\
  map (fun b => rb (@F32_asin env_debug (from_bits b))) [0xBF800000; 0x3F000000; 0x3F800000; 0x3F44C89B; 0x3F44C89C] =
    [3217625051; 1057581145; 1070141403; 1063521930; 1063521926] /\
  map (fun b => rb (@F32_acos env_debug (from_bits b))) [0xBF800000; 0xBF000000; 0; 0x3F000000; 0x3F800000; 0x3E00002E; 0x3E00002F] =
    [1078530011; 1074130924; 1070141403; 1065762783; 531878238; 1069113253; 1069113255].
Proof. vm_compute. split; [|split]; reflexivity. Qed.
