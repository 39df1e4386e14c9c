(** * Properties C43-C53: trigonometric functions and their inverses *)

From Coq Require Import ZArith Reals Bool List Lia Lra.
From Flocq Require Import Core IEEE754.Binary IEEE754.Bits.
From Verif Require Import Base Spec Float TestEnv F32Lemmas BitLemmas Literals ErrLemmas
  NanLemmas P_RoundEdge P_Trig P_Atan P_Atan2 P_TrigEdge P_Asin.
Open Scope Z_scope.

(** ** C43 *)

Theorem C43_cos_accuracy : forall {E : Env} x, fin x -> (Rabs (val x) <= 1048576)%R ->
  fin (F32_cos x) /\ (Rabs (val (F32_cos x) - cos (val x)) <= 0.00112 + 0.0000001001 * Rabs (val x))%R.
Proof. exact @cos_acc. Qed.
Print Assumptions C43_cos_accuracy.

Theorem C43_cos_documented_error : forall {E : Env} x, fin x -> (Rabs (val x) <= 8192)%R ->
  fin (F32_cos x) /\ (Rabs (val (F32_cos x) - cos (val x)) <= 0.002)%R.
Proof. exact @cos_002. Qed.
Print Assumptions C43_cos_documented_error.

(** cos(100) = 0.8629686 (true value 0.8623189). *)
Example C43_case : let x := from_bits 0x42C80000 in
  fin x /\ val x = 100%R /\ to_bits (@F32_cos env_debug x) = 0x3F5CEB82.
Proof. intros x. unfold x. lit 0x42C80000. repeat split; try (bpow_lit; lra); vm_compute; reflexivity. Qed.

(** The documented maximum error 0.002 (cos.rs) does not hold for all x. *)
Theorem C43_cos_002_refuted : forall {E : Env}, exists x, fin x /\ (0 < val x <= 12870)%R /\
  fin (F32_cos x) /\ (Rabs (val (F32_cos x) - cos (val x)) > 0.002)%R.
Proof. exact @cos_002_wrong. Qed.
Print Assumptions C43_cos_002_refuted.

(** ** C44 *)

Theorem C44_sin_accuracy : forall {E : Env} x, fin x -> (Rabs (val x) <= 1048574)%R ->
  fin (F32_sin x) /\ (Rabs (val (F32_sin x) - sin (val x)) <= 0.00113 + 0.00000016 * Rabs (val x))%R.
Proof. exact @sin_acc. Qed.
Print Assumptions C44_sin_accuracy.

Theorem C44_sin_documented_error : forall {E : Env} x, fin x -> (Rabs (val x) <= 4096)%R ->
  fin (F32_sin x) /\ (Rabs (val (F32_sin x) - sin (val x)) <= 0.002)%R.
Proof. exact @sin_002. Qed.
Print Assumptions C44_sin_documented_error.

(** sin(-100) = 0.5064022 (true value 0.5063656). *)
Example C44_case : let x := from_bits 0xC2C80000 in
  fin x /\ val x = (-100)%R /\ to_bits (@F32_sin env_debug x) = 0x3F01A393.
Proof. intros x. unfold x. lit 0xC2C80000. repeat split; try (bpow_lit; lra); vm_compute; reflexivity. Qed.

Theorem C44_sin_002_refuted : forall {E : Env}, exists x, fin x /\ (0 < val x <= 16045)%R /\
  fin (F32_sin x) /\ (Rabs (val (F32_sin x) - sin (val x)) > 0.002)%R.
Proof. exact @sin_002_wrong. Qed.
Print Assumptions C44_sin_002_refuted.

(** ** C45 *)

Theorem C45_cos_sin_bounded : forall {E : Env} x, fin x -> (Rabs (val x) <= 1048574)%R ->
  fin (F32_cos x) /\ (Rabs (val (F32_cos x)) <= 1)%R /\
  fin (F32_sin x) /\ (Rabs (val (F32_sin x)) <= 1)%R.
Proof. exact @cos_sin_bounded. Qed.
Print Assumptions C45_cos_sin_bounded.

Theorem C45_cos_bounded_refuted : forall {E : Env}, exists x, fin x /\ fin (F32_cos x) /\ (val (F32_cos x) > 200000000000)%R.
Proof. exact @cos_unbounded. Qed.
Print Assumptions C45_cos_bounded_refuted.

(** The cosine of an infinity is that infinity; IEEE-754 and the standard
    library give NaN. *)
Theorem C45_infinite_argument : forall {E : Env} s,
  F32_cos (f32_inf s) = f32_inf s /\ F32_sin (f32_inf s) = f32_inf s /\ nan (F32_tan (f32_inf s)).
Proof. exact @trig_inf. Qed.
Print Assumptions C45_infinite_argument.

Theorem C45_nan_argument : forall {E : Env} x, nan x -> nan (F32_cos x) /\ nan (F32_sin x) /\ nan (F32_tan x).
Proof. exact @trig_nan. Qed.
Print Assumptions C45_nan_argument.

(** cos(1000000) = 0.9243164. *)
Example C45_case : let x := from_bits 0x49742400 in
  fin x /\ val x = 1000000%R /\ to_bits (@F32_cos env_debug x) = 0x3F6CA000.
Proof. intros x. unfold x. lit 0x49742400. repeat split; try (bpow_lit; lra); vm_compute; reflexivity. Qed.

(** ** C46 *)

Theorem C46_sin_cos_pair : forall {E : Env} x, F32_sin_cos x = (F32_sin x, F32_cos x).
Proof. exact @sin_cos_pair. Qed.
Print Assumptions C46_sin_cos_pair.

(** The pair is near the unit circle. *)
Theorem C46_sin_cos_unit : forall {E : Env} x, fin x -> (Rabs (val x) <= 4096)%R ->
  let (s, c) := F32_sin_cos x in
  fin s /\ fin c /\ (Rabs (val s * val s + val c * val c - 1) <= 0.0067)%R.
Proof. exact @sin_cos_unit. Qed.
Print Assumptions C46_sin_cos_unit.

(** sin_cos(1) = (0.8421678, 0.5404838). *)
Example C46_case : let (s, c) := @F32_sin_cos env_debug F32_ONE in to_bits s = 0x3F57984F /\ to_bits c = 0x3F0A5D25.
Proof. split; vm_compute; reflexivity. Qed.

(** ** C47 *)

Theorem C47_tan_accuracy : forall {E : Env} x, fin x -> (Rabs (val x) <= 1048574)%R ->
  let e := (0.00113 + 0.00000016 * Rabs (val x))%R in
  (2 * e <= Rabs (cos (val x)))%R ->
  fin (F32_tan x) /\
  (Rabs (val (F32_tan x) - tan (val x)) <= 1.01 * e * (1 + Rabs (tan (val x))) / (Rabs (cos (val x)) - e))%R.
Proof. exact @tan_acc. Qed.
Print Assumptions C47_tan_accuracy.

Theorem C47_tan_accuracy_1_2 : forall {E : Env} x, fin x -> (Rabs (val x) <= 1.2)%R ->
  fin (F32_tan x) /\ (Rabs (val (F32_tan x) - tan (val x)) <= 0.0114)%R.
Proof. exact @tan_1_2. Qed.
Print Assumptions C47_tan_accuracy_1_2.

(** The documented maximum error 0.6 (tan.rs) is exceeded at x = 1.56. *)
Theorem C47_tan_06_refuted : forall {E : Env}, exists x, fin x /\ (0 < val x <= 1.56)%R /\
  fin (F32_tan x) /\ (val (F32_tan x) - tan (val x) > 1.19)%R.
Proof. exact @tan_06_wrong. Qed.
Print Assumptions C47_tan_06_refuted.

(** tan(1) = 1.558174 (true value 1.5574077). *)
Example C47_case : fin F32_ONE /\ val F32_ONE = 1%R /\ to_bits (@F32_tan env_debug F32_ONE) = 0x3FC7723F.
Proof. destruct P_Floor.one_val as [A B]. repeat split; trivial; vm_compute; reflexivity. Qed.

(** ** C48 *)

Theorem C48_atan_accuracy : forall {E : Env} x, fin x -> (Rabs (val x) < bpow radix2 64)%R ->
  fin (F32_atan x) /\ sign_bit (F32_atan x) = sign_bit x /\ (Rabs (val (F32_atan x)) <= val c_FRAC_PI_2)%R /\
  (Rabs (val (F32_atan x) - atan (val x)) <= 0.00284)%R.
Proof. exact @atan_acc. Qed.
Print Assumptions C48_atan_accuracy.

(** The documented maximum error 0.002 (atan.rs) is exceeded at x = 0.5625. *)
Theorem C48_atan_002_refuted : forall {E : Env}, exists x, val x = 0.5625%R /\ fin x /\ fin (F32_atan x) /\
  (Rabs (val (F32_atan x) - atan (val x)) > 0.0028)%R.
Proof. exact @atan_002_wrong. Qed.
Print Assumptions C48_atan_002_refuted.

(** atan(-3) = -1.2481674 (true value -1.2490458). *)
Example C48_case : let x := from_bits 0xC0400000 in
  fin x /\ val x = (-3)%R /\ to_bits (@F32_atan env_debug x) = 0xBF9FC3F3.
Proof. intros x. unfold x. lit 0xC0400000. repeat split; try (bpow_lit; lra); vm_compute; reflexivity. Qed.

(** ** C49 *)

Theorem C49_atan_norm_accuracy : forall {E : Env} x, fin x -> (Rabs (val x) < bpow radix2 64)%R ->
  let q := F32_atan_norm x in
  fin q /\ sign_bit q = sign_bit x /\ (Rabs (val q) <= 1)%R /\ (Rabs (PI / 2 * val q - atan (val x)) <= 0.00283)%R.
Proof. exact @atan_norm_acc. Qed.
Print Assumptions C49_atan_norm_accuracy.

Theorem C49_atan_odd : forall {E : Env} x, fin x -> (Rabs (val x) < bpow radix2 64)%R ->
  F32_atan_norm (fneg x) = fneg (F32_atan_norm x) /\ F32_atan (fneg x) = fneg (F32_atan x).
Proof. exact @atan_norm_odd. Qed.
Print Assumptions C49_atan_odd.

(** NaN for infinities, NaN, and from 2^64 on. *)
Theorem C49_atan_overflow_nan : forall {E : Env} x, (fin x -> (bpow radix2 64 <= Rabs (val x))%R) ->
  nan (F32_atan_norm x) /\ nan (F32_atan x).
Proof. exact @atan_overflow. Qed.
Print Assumptions C49_atan_overflow_nan.

(** atan_norm(-3) = -0.79460806. *)
Example C49_case : let x := from_bits 0xC0400000 in
  fin x /\ val x = (-3)%R /\ to_bits (@F32_atan_norm env_debug x) = 0xBF4B6B6F.
Proof. intros x. unfold x. lit 0xC0400000. repeat split; try (bpow_lit; lra); vm_compute; reflexivity. Qed.

(** ** C50 *)

(** theta is the angle of the point (x, y) at distance rho from the origin.  Just
    below the negative x axis the result can be off by a whole turn. *)
Theorem C50_atan2_accuracy : forall {E : Env} y x rho theta, fin x -> fin y ->
  (Rabs (val x) <= bpow radix2 62)%R -> (Rabs (val y) <= bpow radix2 62)%R ->
  (bpow radix2 (-60) <= Rabs (val x) \/ bpow radix2 (-60) <= Rabs (val y))%R ->
  (0 < rho)%R -> (- PI < theta <= PI)%R -> val x = (rho * cos theta)%R -> val y = (rho * sin theta)%R ->
  let r := F32_atan2 y x in
  fin r /\
  ((Rabs (val r - theta) <= 0.00284)%R \/
   (val x < 0 /\ val y < 0 /\ Rabs (val y) < / 131072 * Rabs (val x) /\ Rabs (val r - (theta + 2 * PI)) <= 0.00284)%R).
Proof. exact @atan2_accuracy. Qed.
Print Assumptions C50_atan2_accuracy.

(** Away from that sliver the result is within 0.00284 of the angle. *)
Theorem C50_atan2_accuracy_plain : forall {E : Env} y x rho theta, fin x -> fin y ->
  (Rabs (val x) <= bpow radix2 62)%R -> (Rabs (val y) <= bpow radix2 62)%R ->
  (bpow radix2 (-60) <= Rabs (val x) \/ bpow radix2 (-60) <= Rabs (val y))%R ->
  (0 < rho)%R -> (- PI < theta <= PI)%R -> val x = (rho * cos theta)%R -> val y = (rho * sin theta)%R ->
  (0 <= val x \/ 0 <= val y \/ / 131072 * Rabs (val x) <= Rabs (val y))%R ->
  fin (F32_atan2 y x) /\ (Rabs (val (F32_atan2 y x) - theta) <= 0.00284)%R.
Proof. exact @atan2_accuracy_plain. Qed.
Print Assumptions C50_atan2_accuracy_plain.

(** "atan2(y, x) has the sign of y" is false: y < 0, x = -1 gives +pi. *)
Theorem C50_atan2_negative_axis_refuted : forall {E : Env}, exists y x, fin y /\ fin x /\ (val y < 0)%R /\ val x = (-1)%R /\
  F32_atan2 y x = c_PI.
Proof. exact @atan2_axis_wrong. Qed.
Print Assumptions C50_atan2_negative_axis_refuted.

(** atan2(-1, -2) = -2.6752498 (true value -2.6779450). *)
Example C50_case : let y := from_bits 0xBF800000 in let x := from_bits 0xC0000000 in
  fin y /\ val y = (-1)%R /\ fin x /\ val x = (-2)%R /\ to_bits (@F32_atan2 env_debug y x) = 0xC02B374B.
Proof. intros y x. unfold x, y. lit 0xBF800000. lit 0xC0000000. repeat split; try (bpow_lit; lra); vm_compute; reflexivity. Qed.

(** ** C51 *)

(** Documented as 0 (atan2.rs). *)
Theorem C51_atan2_origin_nan : forall {E : Env} s t,
  nan (F32_atan2_norm (f32_zero s) (f32_zero t)) /\ nan (F32_atan2 (f32_zero s) (f32_zero t)).
Proof. exact @atan2_origin. Qed.
Print Assumptions C51_atan2_origin_nan.

(** NaN for every infinite or NaN argument, and from |y| = 2^64 on. *)
Theorem C51_atan2_overflow_nan : forall {E : Env} y x,
  is_finite x = false \/ (fin y -> (bpow radix2 64 <= Rabs (val y))%R) ->
  nan (F32_atan2_norm y x) /\ nan (F32_atan2 y x).
Proof. exact @atan2_overflow. Qed.
Print Assumptions C51_atan2_overflow_nan.

(** "atan2 of a point other than the origin is a number" is false. *)
Theorem C51_atan2_underflow_refuted : forall {E : Env}, exists y x, fin y /\ fin x /\ (0 < val y)%R /\ (0 < val x)%R /\ nan (F32_atan2 y x).
Proof. exact @atan2_small_nan. Qed.
Print Assumptions C51_atan2_underflow_refuted.

(** "atan2_norm is in [0, 4)" (atan2.rs) is false. *)
Theorem C51_atan2_norm_range_refuted : forall {E : Env}, exists y x, fin y /\ fin x /\ (val y < 0)%R /\ val x = 1%R /\
  fin (F32_atan2_norm y x) /\ val (F32_atan2_norm y x) = 4%R.
Proof. exact @atan2_norm_4. Qed.
Print Assumptions C51_atan2_norm_range_refuted.

Theorem C51_atan2_norm_range : forall {E : Env} y x, fin x -> fin y ->
  (Rabs (val x) <= bpow radix2 62)%R -> (Rabs (val y) <= bpow radix2 62)%R ->
  (bpow radix2 (-60) <= Rabs (val x) \/ bpow radix2 (-60) <= Rabs (val y))%R ->
  fin (F32_atan2_norm y x) /\ (0 <= val (F32_atan2_norm y x) <= 4)%R.
Proof. exact @atan2_norm_range. Qed.
Print Assumptions C51_atan2_norm_range.

Example C51_case : is_nan (@F32_atan2 env_debug (f32_zero false) (f32_zero false)) = true /\
  to_bits (@F32_atan2_norm env_debug (from_bits 0xBF800000) (from_bits 0x3F800000)) = 0x40600000.
Proof. split; vm_compute; reflexivity. Qed.

(** ** C52 *)

Theorem C52_asin_accuracy : forall {E : Env} x, fin x -> (Rabs (val x) <= 1)%R ->
  exists r, F32_asin x = Ok r /\ fin r /\ (Rabs (val r - asin (val x)) <= 0.0209)%R.
Proof. exact @asin_acc. Qed.
Print Assumptions C52_asin_accuracy.

(** With overflow checks asin panics exactly from |x| = 1.1104561 on. *)
Theorem C52_asin_panic : forall {E : Env} x, overflow_checks = true -> is_nan x = false ->
  (F32_asin x = Panic <-> (fin x -> (val (from_bits 0x3F8E236D) <= Rabs (val x))%R)).
Proof. exact @asin_panic. Qed.
Print Assumptions C52_asin_panic.

Theorem C52_asin_unchecked_total : forall {E : Env} x, overflow_checks = false -> exists r, F32_asin x = Ok r.
Proof. exact @asin_release. Qed.
Print Assumptions C52_asin_unchecked_total.

Theorem C52_asin_nan : forall {E : Env} x r, nan x -> F32_asin x = Ok r -> nan r.
Proof. exact @asin_nan. Qed.
Print Assumptions C52_asin_nan.

(** "asin is NaN outside [-1, 1]" is false: asin(1.05) = 7.1e-39. *)
Theorem C52_asin_outside_refuted : forall {E : Env}, exists x r, fin x /\ (1.04 < val x < 1.06)%R /\
  F32_asin x = Ok r /\ fin r /\ (0 < val r < 0.001)%R.
Proof. exact @asin_outside_number. Qed.
Print Assumptions C52_asin_outside_refuted.

(** asin(0.5) = 0.53674847 (true value 0.52359878). *)
Example C52_case : let x := from_bits 0x3F000000 in
  fin x /\ val x = 0.5%R /\ @F32_asin env_debug x = Ok (from_bits 0x3F096859).
Proof. intros x. unfold x. lit 0x3F000000. split; [reflexivity|]. split; [bpow_lit; lra|]. apply ok_bits; vm_compute; reflexivity. Qed.

(** ** C53 *)

Theorem C53_acos_accuracy : forall {E : Env} x, fin x -> (Rabs (val x) <= 1)%R ->
  (val x = 0%R \/ (bpow radix2 (-64) < Rabs (val x))%R) ->
  exists r, F32_acos x = Ok r /\ fin r /\ (Rabs (val r - acos (val x)) <= 0.0327)%R.
Proof. exact @acos_acc. Qed.
Print Assumptions C53_acos_accuracy.

(** acos is NaN on tiny nonzero arguments, where the true value is about pi/2. *)
Theorem C53_acos_tiny_nan : forall {E : Env} x, fin x -> (0 < Rabs (val x) <= bpow radix2 (-64))%R ->
  exists r, F32_acos x = Ok r /\ nan r.
Proof. exact @acos_tiny_nan. Qed.
Print Assumptions C53_acos_tiny_nan.

Theorem C53_acos_outside_nan : forall {E : Env} x, (fin x -> (1 < Rabs (val x))%R) ->
  exists r, F32_acos x = Ok r /\ nan r.
Proof. exact @acos_outside_nan. Qed.
Print Assumptions C53_acos_outside_nan.

Theorem C53_acos_total : forall {E : Env} x, exists r, F32_acos x = Ok r.
Proof. exact @acos_total. Qed.
Print Assumptions C53_acos_total.

(** acos(-0.5) = 2.0927687 (true value 2.0943951). *)
Example C53_case : let x := from_bits 0xBF000000 in
  fin x /\ val x = (-0.5)%R /\ @F32_acos env_debug x = Ok (from_bits 0x4005EFEC).
Proof. intros x. unfold x. lit 0xBF000000. split; [reflexivity|]. split; [bpow_lit; lra|]. apply ok_bits; vm_compute; reflexivity. Qed.
