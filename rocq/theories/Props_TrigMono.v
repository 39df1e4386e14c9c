(** * Property C124: monotonicity of cos and sin *)

From Coq Require Import ZArith Reals Bool List Lia Lra.
From Flocq Require Import Core IEEE754.Binary IEEE754.Bits.
From Verif Require Import Base Spec SpecTrig Float TestEnv F32Lemmas BitLemmas P_TrigMono.
Import ListNotations.
Open Scope Z_scope.

(** ** C124 *)

(** [turns] is the number of turns up to two roundings. *)
Theorem C124_turns_close : forall x, (Rabs (turns x - val x / (2 * PI)) <= 0.000000015921 * Rabs (val x) + bpow radix2 (-150))%R.
Proof. exact @turns_close. Qed.
Print Assumptions C124_turns_close.

(** Rising half turns: cos is exactly nondecreasing from n - 1/2 to n turns, for every n. *)
Theorem C124_cos_rising : forall {E : Env} x y n, fin x -> fin y -> (Rabs (val x) <= 1000000)%R -> (Rabs (val y) <= 1000000)%R -> (val x <= val y)%R ->
  (IZR n - / 2 <= turns x)%R -> (turns y <= IZR n)%R -> fin (F32_cos x) /\ fin (F32_cos y) /\ (val (F32_cos x) <= val (F32_cos y))%R.
Proof. exact @cos_rising. Qed.
Print Assumptions C124_cos_rising.

(** Falling half turns: cos is exactly nonincreasing from n to n + 1/2 turns for every n <> 0; for
    n = 0 from the quarter turn on. *)
Theorem C124_cos_falling : forall {E : Env} x y n, fin x -> fin y -> (Rabs (val x) <= 1000000)%R -> (Rabs (val y) <= 1000000)%R -> (val x <= val y)%R ->
  (IZR n <= turns x)%R -> (turns y <= IZR n + / 2)%R -> (n = 0 -> (/ 4 <= turns x)%R) -> fin (F32_cos x) /\ fin (F32_cos y) /\ (val (F32_cos y) <= val (F32_cos x))%R.
Proof. exact @cos_falling. Qed.
Print Assumptions C124_cos_falling.

(** The half turn from zero: nonincreasing up to 2^-21. *)
Theorem C124_cos_falling_near : forall {E : Env} x y, fin x -> fin y -> (Rabs (val x) <= 1000000)%R -> (Rabs (val y) <= 1000000)%R -> (val x <= val y)%R ->
  (0 <= turns x)%R -> (turns y <= / 2)%R -> fin (F32_cos x) /\ fin (F32_cos y) /\ (val (F32_cos y) <= val (F32_cos x) + / 2097152)%R.
Proof. exact @cos_falling_near. Qed.
Print Assumptions C124_cos_falling_near.

(** There it is not exactly nonincreasing. *)
Theorem C124_cos_falling_refuted : forall {E : Env}, exists x y, fin x /\ fin y /\ (0 <= val x < val y)%R /\ (val y <= 1)%R /\ (val (F32_cos x) < val (F32_cos y))%R.
Proof. exact @cos_not_antitone. Qed.
Print Assumptions C124_cos_falling_refuted.

(** The same with bounds on the argument: rising on [-PI, 0] and [PI, 2 PI], falling on [-2 PI, -PI] and
    [PI/2, PI], and on [0, PI] up to 2^-21. *)
Theorem C124_cos_intervals : forall {E : Env},
  (forall x y, fin x -> fin y -> (- (2 * half_pi) <= val x)%R -> (val x <= val y)%R -> (val y <= 0)%R -> fin (F32_cos x) /\ fin (F32_cos y) /\ (val (F32_cos x) <= val (F32_cos y))%R) /\
  (forall x y, fin x -> fin y -> (2 * half_pi <= val x)%R -> (val x <= val y)%R -> (val y <= 4 * half_pi)%R -> fin (F32_cos x) /\ fin (F32_cos y) /\ (val (F32_cos x) <= val (F32_cos y))%R) /\
  (forall x y, fin x -> fin y -> (- (4 * half_pi) <= val x)%R -> (val x <= val y)%R -> (val y <= - (2 * half_pi))%R -> fin (F32_cos x) /\ fin (F32_cos y) /\ (val (F32_cos y) <= val (F32_cos x))%R) /\
  (forall x y, fin x -> fin y -> (half_pi <= val x)%R -> (val x <= val y)%R -> (val y <= 2 * half_pi)%R -> fin (F32_cos x) /\ fin (F32_cos y) /\ (val (F32_cos y) <= val (F32_cos x))%R) /\
  (forall x y, fin x -> fin y -> (0 <= val x)%R -> (val x <= val y)%R -> (val y <= 2 * half_pi)%R -> fin (F32_cos x) /\ fin (F32_cos y) /\ (val (F32_cos y) <= val (F32_cos x) + / 2097152)%R).
Proof. exact @cos_intervals. Qed.
Print Assumptions C124_cos_intervals.

(** Sine rises on [-PI/2, PI/2], falls on [-3 PI/2, -PI/2] and [PI, 3 PI/2], and on [PI/2, 3 PI/2]
    up to 2^-21. *)
Theorem C124_sin_intervals : forall {E : Env},
  (forall x y, fin x -> fin y -> (- half_pi <= val x)%R -> (val x <= val y)%R -> (val y <= half_pi)%R -> fin (F32_sin x) /\ fin (F32_sin y) /\ (val (F32_sin x) <= val (F32_sin y))%R) /\
  (forall x y, fin x -> fin y -> (- (3 * half_pi) <= val x)%R -> (val x <= val y)%R -> (val y <= - half_pi)%R -> fin (F32_sin x) /\ fin (F32_sin y) /\ (val (F32_sin y) <= val (F32_sin x))%R) /\
  (forall x y, fin x -> fin y -> (2 * half_pi <= val x)%R -> (val x <= val y)%R -> (val y <= 3 * half_pi)%R -> fin (F32_sin x) /\ fin (F32_sin y) /\ (val (F32_sin y) <= val (F32_sin x))%R) /\
  (forall x y, fin x -> fin y -> (half_pi <= val x)%R -> (val x <= val y)%R -> (val y <= 3 * half_pi)%R -> fin (F32_sin x) /\ fin (F32_sin y) /\ (val (F32_sin y) <= val (F32_sin x) + / 2097152)%R).
Proof. exact @sin_intervals. Qed.
Print Assumptions C124_sin_intervals.

(** Near PI/2 it is not exactly nonincreasing. *)
Theorem C124_sin_falling_refuted : forall {E : Env}, exists x y, fin x /\ fin y /\ (half_pi < val x < val y)%R /\ (val y <= 2)%R /\ (val (F32_sin x) < val (F32_sin y))%R.
Proof. exact @sin_not_antitone. Qed.
Print Assumptions C124_sin_falling_refuted.

(** cos PI = -1, cos 4.1887903 = -0.4999999, cos (2 PI) = 1 rise; sin (-1) = -0.842... < sin 0.5 = 0.479...;
    cos 1.4044012e-7 = 1 - 2^-24 although the next float has cosine 1. *)
Example C124_case :
  map (fun b => to_bits (@F32_cos env_debug (from_bits b))) [0x40490FDB; 0x40860A92; 0x40C90FDB; 0x3416CBE3; 0x3416CBE4] = [3212836864; 3204448253; 1065353216; 1065353215; 1065353216] /\
  map (fun b => to_bits (@F32_sin env_debug (from_bits b))) [0x3FC91F46; 0x3FC91F47; 0xBF800000; 0x3F000000] = [1065353212; 1065353215; 3210188879; 1056271002].
Proof. vm_compute. split; reflexivity. Qed.

(** 2 lies between PI/2 and PI, so the hypotheses can be met. *)
Example C124_turns : (half_pi <= val (f32_of_Z 2) <= 2 * half_pi)%R /\ (/ 4 <= turns (f32_of_Z 2) <= / 2)%R.
Proof.
  rewrite (proj2 (f32_of_Z_exact 2 ltac:(lia))). unfold half_pi. split; [lra|]. unfold turns. rewrite (proj2 (f32_of_Z_exact 2 ltac:(lia))).
  split.
  - rewrite <- (rnd_fmt (/ 4)) at 1 by exact (fmt_bpow (-2) ltac:(lia)). apply rnd_le. lra.
  - rewrite <- (rnd_fmt (/ 2)) by exact (fmt_bpow (-1) ltac:(lia)). apply rnd_le. lra.
Qed.
