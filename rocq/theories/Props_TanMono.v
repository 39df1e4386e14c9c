(** * Property C129: tan keeps the order between its poles *)

From Coq Require Import ZArith Reals Bool List Lia Lra.
From Flocq Require Import Core IEEE754.Binary IEEE754.Bits.
From Verif Require Import Base Spec SpecTrig Float TestEnv F32Lemmas BitLemmas P_Mono P_TrigMono P_TanMono.
Import ListNotations.
Open Scope Z_scope.

(** ** C129 *)

(** cos falls without error term from an eighth of a turn to half a turn. *)
Theorem C129_cos_exact : forall {E : Env} x y, fin x -> fin y -> (Rabs (val x) <= 1000000)%R -> (Rabs (val y) <= 1000000)%R -> (val x <= val y)%R ->
  (/ 8 <= turns x)%R -> (turns y <= / 2)%R -> fin (F32_cos x) /\ fin (F32_cos y) /\ (val (F32_cos y) <= val (F32_cos x))%R.
Proof. exact @cos_falling8. Qed.
Print Assumptions C129_cos_exact.

(** The interval ends two floats above -PI/2 and one float below PI/2 (PI/2 is 13176795 / 2^23 in f32). *)
Theorem C129_tan : forall {E : Env} x y, fin x -> fin y -> (- (13176793 / 8388608) <= val x)%R -> (val x <= val y)%R -> (val y <= 13176794 / 8388608)%R ->
  fin (F32_tan x) /\ fin (F32_tan y) /\ ((val x <= 0 \/ 0.7853982 <= val x)%R -> (val (F32_tan x) <= val (F32_tan y))%R) /\
  (val (F32_tan x) <= val (F32_tan y) + 14 / 16777216 * Rabs (val (F32_tan y)) + bpow radix2 (-148))%R.
Proof. exact @tan_order. Qed.
Print Assumptions C129_tan.

(** Just outside the interval tan is infinite or has the wrong sign. *)
Theorem C129_poles : forall {E : Env}, F32_tan (from_bits 0x3FC90FDB) = F32_INFINITY /\ (val (F32_tan (from_bits 0x3FC90FDC)) < 0)%R /\
  F32_tan (from_bits 0xBFC90FDA) = F32_NEG_INFINITY /\ F32_tan (from_bits 0xBFC90FDB) = F32_NEG_INFINITY.
Proof. exact @tan_poles. Qed.
Print Assumptions C129_poles.

(** The error term is needed between 0 and PI/4. *)
Theorem C129_refuted : forall {E : Env}, exists x y, flt F32_ZERO x = true /\ flt x y = true /\ flt y F32_ONE = true /\ flt (F32_tan y) (F32_tan x) = true.
Proof. exact @tan_not_monotone. Qed.
Print Assumptions C129_refuted.

(** Eleven arguments from the float next to -PI/2 to the f32 PI/2; the two neighbours at 0.4642347 are mapped
    the wrong way round. *)
Example C129_case :
  map (fun b => to_bits (@F32_tan env_debug (from_bits b)))
    [0xBFC90FDA; 0xBFC90FD9; 0xBF800000; 0xB8800000; 0; 0x3EEDB02B; 0x3EEDB02C; 0x3F490FDC; 0x3FA00000; 0x3FC90FDA; 0x3FC90FDB] =
    [4286578688; 3391433034; 3217519169; 3095176858; 0; 1056967064; 1056967062; 1065353217; 1078013947; 1260726602; 2139095040].
Proof. vm_compute. reflexivity. Qed.
