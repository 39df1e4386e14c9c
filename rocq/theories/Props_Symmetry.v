(** * Property C112: symmetries of the trigonometric functions *)

From Coq Require Import ZArith Reals Bool List Lia Lra.
From Flocq Require Import Core IEEE754.Binary IEEE754.Bits.
From Verif Require Import Base Spec Float TestEnv F32Lemmas BitLemmas Literals P_Symmetry.
Import ListNotations.
Open Scope Z_scope.

(** ** C112 *)

(** atan is odd, bit for bit, at every float ([same] identifies NaNs). *)
Theorem C112_atan_odd : forall {E : Env} x, same (F32_atan (fneg x)) (fneg (F32_atan x)).
Proof. exact @atan_odd_all. Qed.
Print Assumptions C112_atan_odd.

(** So is asin, inside and outside [-1, 1]; it panics at x exactly when it panics at -x. *)
Theorem C112_asin_odd : forall {E : Env} x, is_nan x = false ->
  (F32_asin x = Panic /\ F32_asin (fneg x) = Panic) \/
  (exists r r', F32_asin x = Ok r /\ F32_asin (fneg x) = Ok r' /\ same r' (fneg r)).
Proof. exact @asin_odd. Qed.
Print Assumptions C112_asin_odd.

(** acos(-x) is the f32 difference pi - acos(x), bit for bit, for every x > 0. *)
Theorem C112_acos_supplement : forall {E : Env} x, fgt x F32_ZERO = true ->
  exists r r', F32_acos x = Ok r /\ F32_acos (fneg x) = Ok r' /\ same r' (fsub c_PI r).
Proof. exact @acos_supplement. Qed.
Print Assumptions C112_acos_supplement.

(** cos is even up to 1e-5 + 5e-7 |x|; C43 alone gives 0.0022. *)
Theorem C112_cos_even : forall {E : Env} x, fin x -> (Rabs (val x) <= 524288)%R ->
  (Rabs (val (F32_cos (fneg x)) - val (F32_cos x)) <= 0.00001 + 0.0000005 * Rabs (val x))%R.
Proof. exact @cos_even. Qed.
Print Assumptions C112_cos_even.

Theorem C112_cos_even_refuted : forall {E : Env}, exists x, fin x /\ F32_cos (fneg x) <> F32_cos x.
Proof. exact @cos_even_bad. Qed.
Print Assumptions C112_cos_even_refuted.

(** sin is odd up to 1.1e-5 + 8e-7 |x|. *)
Theorem C112_sin_odd : forall {E : Env} x, fin x -> (Rabs (val x) <= 200000)%R ->
  (Rabs (val (F32_sin (fneg x)) + val (F32_sin x)) <= 0.000011 + 0.0000008 * Rabs (val x))%R.
Proof. exact @sin_odd. Qed.
Print Assumptions C112_sin_odd.

(** sin(-0) = +0 = sin(+0). *)
Theorem C112_sin_odd_refuted : forall {E : Env}, exists x, val x = 0%R /\ F32_sin (fneg x) <> fneg (F32_sin x).
Proof. exact @sin_zero_bad. Qed.
Print Assumptions C112_sin_odd_refuted.

(** tan is not odd to within 100 near pi/2. *)
Theorem C112_tan_odd_refuted : forall {E : Env}, exists x, fin x /\ (1.57 < val x < 1.571)%R /\
  fin (F32_tan x) /\ fin (F32_tan (fneg x)) /\ (100 < Rabs (val (F32_tan x) + val (F32_tan (fneg x))))%R.
Proof. exact @tan_odd_bad. Qed.
Print Assumptions C112_tan_odd_refuted.

(** asin(-0.5), asin(0.5), acos(-0.5) and pi - acos(0.5), cos(-2), cos(2), sin(-2), sin(2). *)
Definition C112_bits (r : res f32) : res Z := match r with Ok x => Ok (to_bits x) | Panic => Panic | NoFuel => NoFuel end.
Example C112_case :
  (C112_bits (@F32_asin env_debug (from_bits 0xBF000000)), C112_bits (@F32_asin env_debug (from_bits 0x3F000000))) = (Ok 0xBF096859, Ok 0x3F096859) /\
  (C112_bits (@F32_acos env_debug (from_bits 0xBF000000)), 
   C112_bits (bind (@F32_acos env_debug (from_bits 0x3F000000)) (fun r => Ok (@fsub env_debug c_PI r)))) = (Ok 0x4005EFEC, Ok 0x4005EFEC) /\
  map to_bits [@F32_cos env_debug (from_bits 0xC0000000); @F32_cos env_debug (from_bits 0x40000000);
    @F32_sin env_debug (from_bits 0xC0000000); @F32_sin env_debug (from_bits 0x40000000)] = [0xBED4DCE7; 0xBED4DCE7; 0xBF68E861; 0x3F68E862].
Proof. repeat split; vm_compute; reflexivity. Qed.
