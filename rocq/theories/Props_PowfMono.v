(** * Property C128: powf keeps the order of exponents and of separated bases *)

From Coq Require Import ZArith Reals Bool List Lia Lra.
From Flocq Require Import Core IEEE754.Binary IEEE754.Bits.
From Verif Require Import Base Spec Float TestEnv F32Lemmas BitLemmas P_PowfMono.
Import ListNotations.
Open Scope Z_scope.

(** ** C128 *)

(** Any two finite exponents: increasing for x >= 1, decreasing for normal x below 1. *)
Theorem C128_exponent : forall {E : Env} x m n, fin x -> fin m -> fin n -> (val m <= val n)%R ->
  ((1 <= val x)%R -> (val n * (ln (val x) + 0.0000761) <= 88.72283172607421875)%R ->
   exists r s, F32_powf x m = Ok r /\ F32_powf x n = Ok s /\ fin r /\ fin s /\ (0 <= val r)%R /\ (val r <= val s * 1.000034 + bpow radix2 (-126))%R) /\
  ((bpow radix2 (-126) <= val x < 1)%R -> (- val m * (0.11786 - ln (val x)) <= 88.72283172607421875)%R ->
   exists r s, F32_powf x m = Ok r /\ F32_powf x n = Ok s /\ fin r /\ fin s /\ (0 <= val s)%R /\ (val s <= val r * 1.000034 + bpow radix2 (-126))%R).
Proof. exact @powf_order_exponent. Qed.
Print Assumptions C128_exponent.

(** Bases 1e-4 apart: increasing for n >= 0, decreasing for n <= 0. *)
Theorem C128_base : forall {E : Env} x y n, fin x -> fin y -> fin n -> (bpow radix2 (-126) <= val x)%R -> (1.0001 * val x <= val y)%R ->
  ((0 <= val n)%R -> ((1 <= val y)%R -> (val n * (ln (val y) + 0.0000761) <= 88.72283172607421875)%R) ->
   exists r s, F32_powf x n = Ok r /\ F32_powf y n = Ok s /\ fin r /\ fin s /\ (0 <= val r)%R /\ (val r <= val s * 1.000034 + bpow radix2 (-126))%R) /\
  ((val n <= 0)%R -> ((val x < 1)%R -> (- val n * (0.11786 - ln (val x)) <= 88.72283172607421875)%R) ->
   exists r s, F32_powf x n = Ok r /\ F32_powf y n = Ok s /\ fin r /\ fin s /\ (0 <= val s)%R /\ (val s <= val r * 1.000034 + bpow radix2 (-126))%R).
Proof. exact @powf_order_base. Qed.
Print Assumptions C128_base.

(** Neighbouring bases can be mapped the wrong way round by 0.08 %. *)
Theorem C128_refuted : forall {E : Env}, exists x y n r s, fin x /\ fin y /\ fin n /\ (1 < val x < val y)%R /\ (0 < val n)%R /\
  F32_powf x n = Ok r /\ F32_powf y n = Ok s /\ fin r /\ fin s /\ (1.0008 * val s < val r)%R.
Proof. exact @powf_drop. Qed.
Print Assumptions C128_refuted.

(** 3^-40, 3^-1, 3^2.5; 0.5^-40, 0.5^-1, 0.5^2.5; 0.500244^2.5, 0.500244^-40 and 0.500244^(2^127). *)
Example C128_case :
  map (fun p => match @F32_powf env_debug (from_bits (fst p)) (from_bits (snd p)) with Ok r => to_bits r | _ => -1 end)
    [(0x40400000, 0xC2200000); (0x40400000, 0xBF800000); (0x40400000, 0x40200000); (0x3F000000, 0xC2200000); (0x3F000000, 0xBF800000);
     (0x3F000000, 0x40200000); (0x3F001000, 0x40200000); (0x3F001000, 0xC2200000); (0x3F001000, 0x7F000000)] =
    [532830485; 1051373826; 1098465060; 1400917878; 1073742332; 1043660934; 1043671719; 1400683710; 0].
Proof. vm_compute. reflexivity. Qed.
