(** * Property C127: exp and cosh keep the order up to a few roundings *)

From Coq Require Import ZArith Reals Bool List Lia Lra.
From Flocq Require Import Core IEEE754.Binary IEEE754.Bits.
From Verif Require Import Base Spec Float TestEnv F32Lemmas BitLemmas P_ExpMono.
Import ListNotations.
Open Scope Z_scope.

(** ** C127 *)

(** Normal results: order up to 3e-6 except from 1 and into -1, where it is 3.4e-5; strict once the arguments are 5e-5 apart. *)
Theorem C127_exp : forall {E : Env} x y, fin x -> fin y -> (- 87.3365478515625 <= val x)%R -> (val x <= val y)%R -> (val y <= 88.72283172607421875)%R ->
  exists r s, F32_exp x = Ok r /\ F32_exp y = Ok s /\ fin r /\ fin s /\ (0 < val r)%R /\ (0 < val s)%R /\ (val r <= val s * 1.000034)%R /\
  ((/ 8388608 <= Rabs (val x - 1))%R -> (/ 8388608 <= Rabs (val y + 1))%R -> (val r <= val s * 1.000003)%R) /\
  ((val x + 0.00005 <= val y)%R -> (val r < val s)%R).
Proof. exact @exp_order. Qed.
Print Assumptions C127_exp.

(** All finite arguments below overflow, through the underflow zone. *)
Theorem C127_exp_all : forall {E : Env} x y, fin x -> fin y -> (val x <= val y)%R -> (val y <= 88.72283172607421875)%R ->
  exists r s, F32_exp x = Ok r /\ F32_exp y = Ok s /\ fin r /\ fin s /\ (val r <= val s * 1.000034 + bpow radix2 (-126))%R.
Proof. exact @exp_order_all. Qed.
Print Assumptions C127_exp_all.

(** cosh: order of |x|, up to 2e-6 except at |x| = 1. *)
Theorem C127_cosh : forall {E : Env} x y, fin x -> fin y -> (Rabs (val x) <= Rabs (val y) <= 88.72283172607421875)%R ->
  exists r s, F32_cosh x = Ok r /\ F32_cosh y = Ok s /\ fin r /\ fin s /\ (val r <= val s * 1.000032)%R /\
  ((/ 8388608 <= Rabs (Rabs (val x) - 1))%R -> (/ 8388608 <= Rabs (Rabs (val y) - 1))%R -> (val r <= val s * 1.000002)%R).
Proof. exact @cosh_order_abs. Qed.
Print Assumptions C127_cosh.

(** Twelve increasing arguments from -87.5 to 88.72; both functions fall after 1 and exp falls into -1. *)
Example C127_case :
  let L := [0xC2AF0000; 0xC2AEAC00; 0xC2AE0000; 0xBF800001; 0xBF800000; 0xBF7FFFFF; 0; 0x3F7FFFFF; 0x3F800000; 0x3F800001; 0x3F800100; 0x42B17200] in
  map (fun b => match @F32_exp env_debug (from_bits b) with Ok r => to_bits r | _ => -1 end) L =
    [5858686; 8413646; 11745690; 1052531738; 1052531378; 1052531378; 1065353216; 1076754516; 1076754516; 1076754316; 1076754664; 2139079335] /\
  map (fun b => match @F32_cosh env_debug (from_bits b) with Ok r => to_bits r | _ => -1 end) L =
    [2115418801; 2113906456; 2109134402; 1069908751; 1069908906; 1069908906; 1065353216; 1069908906; 1069908906; 1069908751; 1069909052; 2130690727].
Proof. vm_compute. split; reflexivity. Qed.
