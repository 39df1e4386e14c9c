(** * Property C116: exact means, constant samples, negated samples *)

From Coq Require Import ZArith Reals Bool List Lia Lra Permutation.
From Flocq Require Import Core IEEE754.Binary IEEE754.Bits.
From Verif Require Import Base Spec SpecMore Float Stats TestEnv F32Lemmas BitLemmas Literals P_RoundEdge P_Stats3.
Import ListNotations.
Open Scope Z_scope.

(** ** C116 *)

(** Samples that are integer multiples of 2^e with absolute values summing to
    at most 2^24 units: the sum is exact and the mean is rounded once. *)
Theorem C116_mean_correctly_rounded : forall {E : Env} e l ks, -149 <= e <= 100 ->
  Forall2 (fun a k => fin a /\ val a = (IZR k * bpow radix2 e)%R) l ks ->
  zsum (map Z.abs ks) <= 2 ^ 24 -> 0 < Z.of_nat (length l) <= 2 ^ 24 ->
  exists m, mean l = Ok m /\ fin m /\
    val m = rnd (IZR (zsum ks) * bpow radix2 e / IZR (Z.of_nat (length l))).
Proof. exact @mean_exact. Qed.
Print Assumptions C116_mean_correctly_rounded.

Theorem C116_mean_of_integers : forall {E : Env} ks, zsum (map Z.abs ks) <= 2 ^ 24 -> 0 < Z.of_nat (length ks) <= 2 ^ 24 ->
  exists m, mean (map f32_of_Z ks) = Ok m /\ fin m /\ val m = rnd (IZR (zsum ks) / IZR (Z.of_nat (length ks))).
Proof. exact @mean_integers. Qed.
Print Assumptions C116_mean_of_integers.

(** Equal samples whose sum fits: the mean is the sample, the variance +0, the
    standard deviation sqrt(+0) = 1.5 * 2^-64, and trim keeps everything. *)
Theorem C116_mean_of_equal_samples : forall {E : Env} x k e n, fin x -> val x = (IZR k * bpow radix2 e)%R -> -149 <= e <= 100 ->
  (0 < n)%nat -> Z.of_nat n * Z.max 1 (Z.abs k) <= 2 ^ 24 ->
  exists m, mean (repeat x n) = Ok m /\ fin m /\ val m = val x.
Proof. exact @mean_constant. Qed.
Print Assumptions C116_mean_of_equal_samples.

Theorem C116_spread_of_equal_samples : forall {E : Env} x k e n, fin x -> val x = (IZR k * bpow radix2 e)%R -> -149 <= e <= 100 ->
  (2 <= n)%nat -> Z.of_nat n * Z.max 1 (Z.abs k) <= 2 ^ 24 ->
  variance (fun x => x) (repeat x n) = Ok (f32_zero false) /\
  stddev (fun x => x) (repeat x n) = Ok (from_bits 0x1FC00000) /\
  forall t, fin t -> (0 < val t)%R -> trim_at (fun x => x) (repeat x n) t = Ok (repeat x n).
Proof. exact @variance_constant. Qed.
Print Assumptions C116_spread_of_equal_samples.

(** "The mean lies between the smallest and the largest sample" and "equal
    samples have variance 0" are false in general. *)
Theorem C116_mean_between_extremes_refuted : forall {E : Env}, exists c m v, fin c /\ (1 < val c < 2)%R /\
  mean [c; c; c] = Ok m /\ fin m /\ (val m < val c)%R /\
  variance (fun x => x) [c; c; c] = Ok v /\ fin v /\ (0 < val v)%R.
Proof. exact @mean_three. Qed.
Print Assumptions C116_mean_between_extremes_refuted.

(** "The mean does not depend on the order of the samples" is false. *)
Theorem C116_mean_order_independent_refuted : forall {E : Env}, exists l l' m m', Permutation l l' /\
  mean l = Ok m /\ mean l' = Ok m' /\ fin m /\ fin m' /\ val m = 0%R /\ (0.3 < val m')%R.
Proof. exact @mean_order. Qed.
Print Assumptions C116_mean_order_independent_refuted.

(** Negating every sample negates the mean and changes neither the variance
    nor the standard deviation nor the samples that trim_at keeps. *)
Theorem C116_negated_samples : forall {E : Env} {T} (into : T -> f32) l, l <> [] -> Z.of_nat (length l) < 2 ^ 31 ->
  exists m m' v v' s s',
    mean (map into l) = Ok m /\ mean (map (fun x => fneg (into x)) l) = Ok m' /\ negates m m' /\
    variance into l = Ok v /\ variance (fun x => fneg (into x)) l = Ok v' /\ same v v' /\
    stddev into l = Ok s /\ stddev (fun x => fneg (into x)) l = Ok s' /\ same s s' /\
    forall t, trim_at (fun x => fneg (into x)) l t = trim_at into l t.
Proof. exact @stats_negated. Qed.
Print Assumptions C116_negated_samples.

(** mean [-3; 10; 5; 5] = 4.25; variance [7; 7; 7] = 0; trim_at(0.75) of [7; 7; 7] keeps all;
    mean of the negated samples is -4.25. *)
Example C116_case : @mean env_debug (map f32_of_Z [-3; 10; 5; 5]) = Ok (from_bits 0x40880000) /\
  @variance env_debug Z f32_of_Z [7; 7; 7] = Ok (from_bits 0) /\
  @trim_at env_debug Z f32_of_Z [7; 7; 7] (from_bits 0x3F400000) = Ok [7; 7; 7] /\
  @mean env_debug (map (fun k => fneg (f32_of_Z k)) [-3; 10; 5; 5]) = Ok (from_bits 0xC0880000).
Proof. repeat split; try (apply ok_bits; vm_compute; reflexivity). Qed.
