(** * Property C126: ln, log2 and log10 keep the order up to a few roundings *)

From Coq Require Import ZArith Reals Bool List Lia Lra.
From Flocq Require Import Core IEEE754.Binary IEEE754.Bits.
From Verif Require Import Base Spec Float TestEnv F32Lemmas BitLemmas P_LnMono.
Import ListNotations.
Open Scope Z_scope.

(** ** C126 *)

(** 0 <= x <= y, zero and subnormals included: ln x exceeds ln y by at most 2e-6 plus about two ulps. *)
Theorem C126_ln : forall {E : Env} x y, fin x -> fin y -> sign_bit x = false -> sign_bit y = false -> (val x <= val y)%R ->
  fin (F32_ln x) /\ fin (F32_ln y) /\
  (val (F32_ln x) <= val (F32_ln y) + (0.000002 + 4.1 / 16777216 * Rmax (Rabs (val (F32_ln x))) (Rabs (val (F32_ln y)))))%R.
Proof. exact @ln_order. Qed.
Print Assumptions C126_ln.

(** The same for log2 and log10. *)
Theorem C126_log2_log10 : forall {E : Env} x y, fin x -> fin y -> sign_bit x = false -> sign_bit y = false -> (val x <= val y)%R ->
  fin (F32_log2 x) /\ fin (F32_log2 y) /\ fin (F32_log10 x) /\ fin (F32_log10 y) /\
  (val (F32_log2 x) <= val (F32_log2 y) + (0.000003 + 6.2 / 16777216 * Rmax (Rabs (val (F32_log2 x))) (Rabs (val (F32_log2 y)))))%R /\
  (val (F32_log10 x) <= val (F32_log10 y) + (0.000001 + 6.2 / 16777216 * Rmax (Rabs (val (F32_log10 x))) (Rabs (val (F32_log10 y)))))%R.
Proof. exact @log2_log10_order. Qed.
Print Assumptions C126_log2_log10.

(** Normal x and y >= 1.0001 x: strictly in order, although below one ln itself is off by up to 0.118. *)
Theorem C126_strict : forall {E : Env} x y, fin x -> fin y -> (bpow radix2 (-126) <= val x)%R -> (1.0001 * val x <= val y)%R ->
  (val (F32_ln x) + 0.000025 <= val (F32_ln y))%R /\ (val (F32_log2 x) < val (F32_log2 y))%R /\ (val (F32_log10 x) < val (F32_log10 y))%R.
Proof. exact @logs_gap. Qed.
Print Assumptions C126_strict.

(** Not for neighbours: all three fall from 1.50000167 to the next float. *)
Theorem C126_refuted : forall {E : Env}, exists x y, fin x /\ fin y /\ (1 < val x)%R /\ (val x < val y)%R /\
  (val (F32_ln y) < val (F32_ln x))%R /\ (val (F32_log2 y) < val (F32_log2 x))%R /\ (val (F32_log10 y) < val (F32_log10 x))%R.
Proof. exact @ln_order_fails. Qed.
Print Assumptions C126_refuted.

(** Eleven increasing arguments from 2^-149 to 1000; the third and fourth, and the eighth and ninth, are
    neighbours mapped the wrong way round. *)
Example C126_case :
  let L := [1; 0x3F000000; 0x3F19999D; 0x3F19999E; 0x3F7FFFFF; 0x3F800000; 0x3F800001; 0x3FC0000E; 0x3FC0000F; 0x3FC01000; 0x447A0000] in
  map (fun b => to_bits (@F32_ln env_debug (from_bits b))) L =
    [3266318124; 3207689744; 3205921352; 3205921356; 0; 0; 947847168; 1053792024; 1053792016; 1053802888; 1088228500] /\
  map (fun b => to_bits (@F32_log2 env_debug (from_bits b))) L =
    [3271426037; 3212837597; 3210287079; 3210287085; 0; 0; 951579025; 1058389667; 1058389662; 1058397504; 1092580360] /\
  map (fun b => to_bits (@F32_log10 env_debug (from_bits b))) L =
    [3256413267; 3197772813; 3196236807; 3196236811; 0; 0; 937262461; 1043615617; 1043615611; 1043625054; 1077936183].
Proof. vm_compute. split; [|split]; reflexivity. Qed.
