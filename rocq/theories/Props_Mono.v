(** * Property C119: monotonicity of powi, hypot, the norms and mean *)

From Coq Require Import ZArith Reals Bool List Lia Lra.
From Flocq Require Import Core IEEE754.Binary IEEE754.Bits.
From Verif Require Import Base Spec SpecMore SpecSym Float Vector Quaternion Stats TestEnv F32Lemmas BitLemmas Literals P_RoundEdge P_Mono.
Import ListNotations.
Open Scope Z_scope.

(** ** C119 *)

(** Every positive exponent below 2^24, every pair of nonnegative bases,
    infinity included. *)
Theorem C119_powi : forall {E : Env} fuel x y n a b, 0 < n < 2 ^ 24 -> sign_bit x = false -> sign_bit y = false -> fle x y = true ->
  F32_powi fuel x n = Ok a -> F32_powi fuel y n = Ok b -> fle a b = true /\ sign_bit a = false.
Proof. exact @powi_monotone. Qed.
Print Assumptions C119_powi.

(** Larger components never give a smaller norm, overflow included. *)
Theorem C119_hypot : forall {E : Env} a b a' b', fle (F32_abs a) (F32_abs a') = true -> fle (F32_abs b) (F32_abs b') = true ->
  exists r r', F32_hypot a b = Ok r /\ F32_hypot a' b' = Ok r' /\ fin r /\ fin r' /\ (0 < val r <= val r')%R.
Proof. exact @hypot_monotone. Qed.
Print Assumptions C119_hypot.

Theorem C119_vector2d_magnitude : forall {E : Env} (v w : Vector2d f32),
  Forall2 (fun a b => fle (F32_abs a) (F32_abs b) = true) (v2_to_array v) (v2_to_array w) ->
  exists r r', vt_magnitude (fun x => x) v = Ok r /\ vt_magnitude (fun x => x) w = Ok r' /\ fin r /\ fin r' /\ (0 < val r <= val r')%R.
Proof. exact @v2_magnitude_monotone. Qed.
Print Assumptions C119_vector2d_magnitude.

Theorem C119_vector3d_magnitude : forall {E : Env} (v w : Vector3d f32),
  Forall2 (fun a b => fle (F32_abs a) (F32_abs b) = true) (v3_to_array v) (v3_to_array w) ->
  exists r r', vt_magnitude (fun x => x) v = Ok r /\ vt_magnitude (fun x => x) w = Ok r' /\ fin r /\ fin r' /\ (0 < val r <= val r')%R.
Proof. exact @v3_magnitude_monotone. Qed.
Print Assumptions C119_vector3d_magnitude.

Theorem C119_quaternion_magnitude : forall {E : Env} p q, qrel (fun a b => fle (F32_abs a) (F32_abs b) = true) p q ->
  exists r r', Q_magnitude p = Ok r /\ Q_magnitude q = Ok r' /\ fin r /\ fin r' /\ (0 < val r <= val r')%R.
Proof. exact @quat_magnitude_monotone. Qed.
Print Assumptions C119_quaternion_magnitude.

(** Raising samples never lowers the mean. *)
Theorem C119_mean : forall {E : Env} l l' m m', 0 < Z.of_nat (length l) <= 2 ^ 24 ->
  Forall2 (fun a b => (val a <= val b)%R) l l' -> mean l = Ok m -> mean l' = Ok m' -> fin m -> fin m' -> (val m <= val m')%R.
Proof. exact @mean_monotone. Qed.
Print Assumptions C119_mean.

(** The other approximations are not monotone. *)
Theorem C119_recip_refuted : forall {E : Env}, exists x y, flt F32_ONE x = true /\ flt x y = true /\ flt (F32_recip x) (F32_recip y) = true.
Proof. exact @recip_not_antitone. Qed.
Print Assumptions C119_recip_refuted.

Theorem C119_atan_refuted : forall {E : Env}, exists x y, flt F32_ONE x = true /\ flt x y = true /\ flt (F32_atan y) (F32_atan x) = true.
Proof. exact @atan_not_monotone. Qed.
Print Assumptions C119_atan_refuted.

Theorem C119_asin_refuted : forall {E : Env}, exists x y a b, flt F32_ZERO x = true /\ flt x y = true /\ flt y F32_ONE = true /\
  F32_asin x = Ok a /\ F32_asin y = Ok b /\ flt b a = true.
Proof. exact @asin_not_monotone. Qed.
Print Assumptions C119_asin_refuted.

Theorem C119_acos_refuted : forall {E : Env}, exists x y a b, flt F32_ZERO x = true /\ flt x y = true /\ flt y F32_ONE = true /\
  F32_acos x = Ok a /\ F32_acos y = Ok b /\ flt a b = true.
Proof. exact @acos_not_antitone. Qed.
Print Assumptions C119_acos_refuted.

Theorem C119_cos_refuted : forall {E : Env}, exists x y, flt F32_ZERO x = true /\ flt x y = true /\ flt y F32_ONE = true /\ flt (F32_cos x) (F32_cos y) = true.
Proof. exact @cos_not_antitone. Qed.
Print Assumptions C119_cos_refuted.

Theorem C119_tan_refuted : forall {E : Env}, exists x y, flt F32_ZERO x = true /\ flt x y = true /\ flt y F32_ONE = true /\ flt (F32_tan y) (F32_tan x) = true.
Proof. exact @tan_not_monotone. Qed.
Print Assumptions C119_tan_refuted.

(** 0.75^5 < 1.5^5 < 3^5 = 243, and (2^64)^5 is infinite. *)
Example C119_powi_case :
  map (fun b => match @F32_powi env_debug 32 (from_bits b) 5 with Ok r => to_bits r | _ => -1 end)
    [0x3F400000; 0x3FC00000; 0x40400000; 0x5F800000] = [1047724032; 1089667072; 1131610112; 2139095040].
Proof. vm_compute. reflexivity. Qed.

(** hypot(3, -4) <= hypot(-5, 4), and the means of (1, 2, 4) and (1, 3, 4). *)
Example C119_case :
  let b := fun r => match r with Ok x => to_bits x | _ => -1 end in
  b (@F32_hypot env_debug (f32_of_Z 3) (f32_of_Z (-4))) = 1084489728 /\
  b (@F32_hypot env_debug (f32_of_Z (-5)) (f32_of_Z 4)) = 1087504384 /\
  b (@mean env_debug (map f32_of_Z [1; 2; 4])) = 1075139925 /\
  b (@mean env_debug (map f32_of_Z [1; 3; 4])) = 1076538027.
Proof. vm_compute. repeat split. Qed.
