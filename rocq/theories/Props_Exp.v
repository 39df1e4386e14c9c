(** * Properties C26-C29 and C42: exp and cosh *)

From Coq Require Import ZArith Reals Bool List Lia Lra.
From Flocq Require Import Core IEEE754.Binary IEEE754.Bits.
From Verif Require Import Base Spec Float TestEnv F32Lemmas BitLemmas Literals ErrLemmas
  NanLemmas P_RoundEdge P_Exp P_Cosh.
Open Scope Z_scope.

(** ** C26 *)

Theorem C26_exp_accuracy_nonneg : forall {E : Env} x, fin x -> (0 <= val x <= 88.72283172607421875)%R ->
  exists r, F32_exp x = Ok r /\ fin r /\ (0 < val r)%R /\ (Rabs (val r - exp (val x)) <= 0.000761 * exp (val x))%R.
Proof. exact @exp_acc_pos. Qed.
Print Assumptions C26_exp_accuracy_nonneg.

Theorem C26_exp_accuracy_neg : forall {E : Env} x, fin x -> (- 87.3365478515625 <= val x <= 0)%R ->
  exists r, F32_exp x = Ok r /\ fin r /\ (0 < val r)%R /\ (Rabs (val r - exp (val x)) <= 0.0023975 * exp (val x))%R.
Proof. exact @exp_acc_neg. Qed.
Print Assumptions C26_exp_accuracy_neg.

(** The relative error 0.001 that the unit tests check does not hold on all negative arguments. *)
Theorem C26_exp_error_0_001_refuted : forall {E : Env}, exists x r, fin x /\ (-1 < val x < 0)%R /\ F32_exp x = Ok r /\ fin r /\
  (Rabs (val r - exp (val x)) > 0.0023 * exp (val x))%R.
Proof. exact @exp_doc. Qed.
Print Assumptions C26_exp_error_0_001_refuted.

(** exp(2) = 7.385829 (true value 7.389056), exp(-2) = 0.13549961 (true value 0.13533528). *)
Example C26_case : @F32_exp env_debug (from_bits 0x40000000) = Ok (from_bits 0x40EC58B6) /\
  @F32_exp env_debug (from_bits 0xC0000000) = Ok (from_bits 0x3E0AC069) /\
  @F32_exp env_release (from_bits 0x42B00000) = Ok (from_bits 0x7EF85B37).
Proof. split; [|split]; apply ok_bits; vm_compute; reflexivity. Qed.

(** ** C27 *)

(** In [88.72283935546875, 89.41597747802734375] exp panics with debug assertions; without, it returns
    +inf at the first float of the interval and NaN at every other one. *)
Theorem C27_exp_window : forall {E : Env} x, fin x -> (88.72283935546875 <= val x <= 89.41597747802734375)%R ->
  (debug_assertions = true -> F32_exp x = Panic) /\
  (debug_assertions = false -> exists r, F32_exp x = Ok r /\
     (val x = 88.72283935546875%R -> r = F32_INFINITY) /\ ((88.72284698486328125 <= val x)%R -> nan r)).
Proof. exact @exp_window. Qed.
Print Assumptions C27_exp_window.

Theorem C27_exp_panic_iff : forall {E : Env} x, F32_exp x = Panic <->
  debug_assertions = true /\ fin x /\ (88.72283935546875 <= val x <= 89.41597747802734375)%R.
Proof. exact @exp_panic_iff. Qed.
Print Assumptions C27_exp_panic_iff.

(** exp(89): a panic in a debug build, a NaN in a release build. *)
Example C27_case : @F32_exp env_debug (from_bits 0x42B20000) = Panic /\
  match @F32_exp env_release (from_bits 0x42B20000) with Ok r => is_nan r = true | _ => False end.
Proof. split; vm_compute; reflexivity. Qed.

(** ** C28 *)

Theorem C28_exp_over : forall {E : Env} x, is_nan x = false -> sign_bit x = false ->
  (fin x -> (89.415985107421875 <= val x)%R) -> F32_exp x = Ok F32_INFINITY.
Proof. exact @exp_over. Qed.
Print Assumptions C28_exp_over.

Theorem C28_exp_under : forall {E : Env} x, is_nan x = false -> sign_bit x = true ->
  (fin x -> (val x <= - 88.029693603515625)%R) -> F32_exp x = Ok F32_ZERO.
Proof. exact @exp_under. Qed.
Print Assumptions C28_exp_under.

Theorem C28_exp_gradual : forall {E : Env} x, fin x -> (- 88.029693603515625 < val x < - 87.3365478515625)%R ->
  exists r, F32_exp x = Ok r /\ fin r /\ (0 <= val r <= bpow radix2 (-126))%R.
Proof. exact @exp_gradual. Qed.
Print Assumptions C28_exp_gradual.

(** Outside the window of C27 the result is a number with the sign bit clear: no panic, no NaN, no negative value. *)
Theorem C28_exp_total_outside : forall {E : Env} x,
  ~ (fin x /\ (88.72283935546875 <= val x <= 89.41597747802734375)%R) ->
  exists r, F32_exp x = Ok r /\ is_nan r = false /\ sign_bit r = false.
Proof. exact @exp_outside. Qed.
Print Assumptions C28_exp_total_outside.

(** exp(100) = inf, exp(-inf) = 0, exp(-87.5) is subnormal. *)
Example C28_case : @F32_exp env_debug (from_bits 0x42C80000) = Ok F32_INFINITY /\
  @F32_exp env_debug (f32_inf true) = Ok F32_ZERO /\
  match @F32_exp env_debug (from_bits 0xC2AF0000) with Ok r => 0 < to_bits r < 0x800000 | _ => False end.
Proof. split; [|split]; [vm_compute; reflexivity|vm_compute; reflexivity|vm_compute; split; reflexivity]. Qed.

(** ** C29 *)

Theorem C29_exp_nan : forall {E : Env} x, nan x -> F32_exp x = Ok F32_INFINITY \/ F32_exp x = Ok F32_ZERO.
Proof. exact @exp_nan. Qed.
Print Assumptions C29_exp_nan.

(** Which one depends on the sign bit of the NaN that the hardware returns for [x * LOG2_E]. *)
Definition qnan_neg : nan_f32 := exist _ (@B754_nan 24 128 true (Pos.pow 2 22) eq_refl) eq_refl.
Definition env_neg_nan : Env := {| overflow_checks := true; debug_assertions := true;
  nan_add := fun _ _ => qnan; nan_sub := fun _ _ => qnan; nan_mul := fun _ _ => qnan_neg;
  nan_div := fun _ _ => qnan; nan_rem := fun _ _ => qnan; nan_const := qnan; sum_start := true |}.

Example C29_case : is_nan (from_bits 0x7FC00000) = true /\
  @F32_exp env_debug (from_bits 0x7FC00000) = Ok F32_INFINITY /\ @F32_exp env_neg_nan (from_bits 0xFFC00000) = Ok F32_ZERO.
Proof. split; [|split]; vm_compute; reflexivity. Qed.

(** ** C42 *)

(** Bit-for-bit even: both calls panic, or both return the same float, or both return a NaN. *)
Theorem C42_cosh_even : forall {E : Env} x,
  match F32_cosh x, F32_cosh (fneg x) with
  | Ok a, Ok b => a = b \/ (nan a /\ nan b) | Panic, Panic => True | _, _ => False end.
Proof. exact @cosh_even. Qed.
Print Assumptions C42_cosh_even.

Theorem C42_cosh_accuracy : forall {E : Env} x, fin x -> (Rabs (val x) <= 88.72283172607421875)%R ->
  exists r, F32_cosh x = Ok r /\ fin r /\
    (Rabs (val r - (exp (val x) + exp (- val x)) / 2) <= 0.000381 * exp (Rabs (val x)) + 0.0012 * exp (- Rabs (val x)))%R.
Proof. exact @cosh_acc. Qed.
Print Assumptions C42_cosh_accuracy.

Theorem C42_cosh_0_pi : forall {E : Env} x, fin x -> (0 <= val x <= PI)%R ->
  exists r, F32_cosh x = Ok r /\ fin r /\ (Rabs (val r - (exp (val x) + exp (- val x)) / 2) <= 0.0089)%R.
Proof. exact @cosh_0_pi. Qed.
Print Assumptions C42_cosh_0_pi.

Theorem C42_cosh_0_2pi : forall {E : Env} x, fin x -> (0 <= val x <= 2 * PI)%R ->
  exists r, F32_cosh x = Ok r /\ fin r /\ (Rabs (val r - (exp (val x) + exp (- val x)) / 2) <= 0.2041)%R.
Proof. exact @cosh_0_2pi. Qed.
Print Assumptions C42_cosh_0_2pi.

(** The documented maximum errors (0.003 on 0..pi, 0.1 on pi..2pi) are exceeded. *)
Theorem C42_cosh_documented_error_refuted : forall {E : Env}, exists x r, fin x /\ (0 <= val x <= PI)%R /\ F32_cosh x = Ok r /\ fin r /\
  (Rabs (val r - (exp (val x) + exp (- val x)) / 2) > 0.005)%R.
Proof. exact @cosh_doc_1. Qed.
Print Assumptions C42_cosh_documented_error_refuted.

Theorem C42_cosh_documented_error_tau_refuted : forall {E : Env}, exists x r, fin x /\ (PI <= val x <= 2 * PI)%R /\ F32_cosh x = Ok r /\ fin r /\
  (Rabs (val r - (exp (val x) + exp (- val x)) / 2) > 0.19)%R.
Proof. exact @cosh_doc_2. Qed.
Print Assumptions C42_cosh_documented_error_tau_refuted.

Theorem C42_cosh_panic_iff : forall {E : Env} x, F32_cosh x = Panic <-> debug_assertions = true /\ fin x /\ (88.72283935546875 <= Rabs (val x) <= 89.41597747802734375)%R.
Proof. exact @cosh_panic_abs. Qed.
Print Assumptions C42_cosh_panic_iff.

(** cosh(1) = 1.5430806, cosh(-2) = cosh(2) = 3.7606642. *)
Example C42_case : @F32_cosh env_debug (from_bits 0x3F800000) = Ok (from_bits 0x3FC583AA) /\
  @F32_cosh env_debug (from_bits 0x40000000) = Ok (from_bits 0x4070AEB9) /\
  @F32_cosh env_debug (from_bits 0xC0000000) = Ok (from_bits 0x4070AEB9).
Proof. split; [|split]; apply ok_bits; vm_compute; reflexivity. Qed.
