(** * Property C121: exact powers, small exponents and negative exponents of powi *)

From Coq Require Import ZArith Reals Bool List Lia Lra.
From Flocq Require Import Core IEEE754.Binary IEEE754.Bits.
From Verif Require Import Base Spec SpecMore Float TestEnv F32Lemmas BitLemmas Literals P_RoundEdge P_Powi4.
Import ListNotations.
Open Scope Z_scope.

(** ** C121 *)

(** When every power up to the N-th is an f32, powi returns the N-th power. *)
Theorem C121_exact : forall {E : Env} x e N fuel, fin x -> -126 <= e -> (bpow radix2 e <= Rabs (val x) < bpow radix2 (e + 1))%R ->
  (1 <= N)%nat -> Z.of_nat N < 2 ^ 31 -> (31 <= fuel)%nat -> -149 <= e * Z.of_nat N ->
  (forall i, (1 <= i <= N)%nat -> fmt (val x ^ i) /\ (Rabs (val x ^ i) < bpow radix2 128)%R) ->
  exists r, F32_powi fuel x (Z.of_nat N) = Ok r /\ fin r /\ val r = (val x ^ N)%R.
Proof. exact @powi_exact. Qed.
Print Assumptions C121_exact.

(** Integer bases of either sign, as long as |m|^N <= 2^24. *)
Theorem C121_integer : forall {E : Env} x m N fuel, fin x -> val x = IZR m -> (1 <= N)%nat -> Z.of_nat N < 2 ^ 31 -> (31 <= fuel)%nat ->
  Z.abs m ^ Z.of_nat N <= 2 ^ 24 -> exists r, F32_powi fuel x (Z.of_nat N) = Ok r /\ fin r /\ val r = IZR (m ^ Z.of_nat N).
Proof. exact @powi_integer. Qed.
Print Assumptions C121_integer.

(** Powers of two, down to the least subnormal. *)
Theorem C121_power_of_two : forall {E : Env} x k N fuel, fin x -> val x = bpow radix2 k -> -126 <= k -> (1 <= N)%nat -> Z.of_nat N < 2 ^ 31 -> (31 <= fuel)%nat ->
  -149 <= k * Z.of_nat N <= 127 -> exists r, F32_powi fuel x (Z.of_nat N) = Ok r /\ fin r /\ val r = bpow radix2 (k * Z.of_nat N).
Proof. exact @powi_two. Qed.
Print Assumptions C121_power_of_two.

Theorem C121_power_of_two_negative : forall {E : Env} x k N fuel, fin x -> val x = bpow radix2 k -> -126 <= k -> (1 <= N)%nat -> Z.of_nat N < 2 ^ 31 -> (31 <= fuel)%nat ->
  -149 <= - (k * Z.of_nat N) <= 127 -> exists r, F32_powi fuel x (- Z.of_nat N) = Ok r /\ fin r /\ val r = bpow radix2 (- (k * Z.of_nat N)).
Proof. exact @powi_two_neg. Qed.
Print Assumptions C121_power_of_two_negative.

(** powi(x, 2) is the rounded product x * x, overflow included, for |x| >= 2^-74. *)
Theorem C121_square : forall {E : Env} x fuel, fin x -> (bpow radix2 (-74) <= Rabs (val x))%R -> (31 <= fuel)%nat -> F32_powi fuel x 2 = Ok (fmul x x).
Proof. exact @powi_square. Qed.
Print Assumptions C121_square.

(** Below that it is not: the early exit returns 0 where x * x is the least
    subnormal. *)
Theorem C121_square_tiny_refuted : forall {E : Env} fuel, exists x, fin x /\ (bpow radix2 (-75) < val x)%R /\
  F32_powi fuel x 2 = Ok F32_ZERO /\ val (fmul x x) = bpow radix2 (-149).
Proof. exact @powi_square_tiny. Qed.
Print Assumptions C121_square_tiny_refuted.

Theorem C121_cube : forall {E : Env} x fuel, fin x -> (bpow radix2 (-49) <= Rabs (val x) < bpow radix2 42)%R -> (31 <= fuel)%nat ->
  F32_powi fuel x 3 = Ok (fmul x (fmul x x)).
Proof. exact @powi_cube. Qed.
Print Assumptions C121_cube.

(** powi(x, -1) is the rounded quotient 1 / x, zeros and infinities included. *)
Theorem C121_minus_one : forall {E : Env} x fuel, is_nan x = false -> (31 <= fuel)%nat -> F32_powi fuel x (-1) = Ok (fdiv F32_ONE x).
Proof. exact @powi_minus_one. Qed.
Print Assumptions C121_minus_one.

(** A larger nonnegative base never has a larger negative power. *)
Theorem C121_antitone : forall {E : Env} fuel x y n a b, 0 < n < 2 ^ 24 -> (31 <= fuel)%nat -> sign_bit x = false -> sign_bit y = false -> fle x y = true ->
  F32_powi fuel x (- n) = Ok a -> F32_powi fuel y (- n) = Ok b -> fle b a = true /\ sign_bit b = false.
Proof. exact @powi_antitone_all. Qed.
Print Assumptions C121_antitone.

Theorem C121_zero_negative : forall {E : Env} fuel n, 0 < n < 2 ^ 24 -> (31 <= fuel)%nat -> F32_powi fuel F32_ZERO (- n) = Ok (f32_inf false).
Proof. exact @powi_zero_neg. Qed.
Print Assumptions C121_zero_negative.

(** A power of a base above 1 is not below 1, and the other way round. *)
Theorem C121_side_of_one : forall {E : Env} fuel x n a, 0 < n < 2 ^ 24 -> is_nan x = false -> sign_bit x = false -> F32_powi fuel x n = Ok a ->
  (fle x F32_ONE = true -> fle a F32_ONE = true) /\ (fle F32_ONE x = true -> fle F32_ONE a = true).
Proof. exact @powi_side. Qed.
Print Assumptions C121_side_of_one.

(** (-7)^8 = 5764801, 3^15 = 14348907 and 10^7: 24-bit integers, returned exactly. *)
Example C121_integer_case :
  map (fun p => match @F32_powi env_debug 32 (f32_of_Z (fst p)) (snd p) with Ok r => to_bits r | _ => -1 end) [(-7, 8); (3, 15); (10, 7)] =
  map (fun m => to_bits (f32_of_Z m)) [5764801; 14348907; 10000000].
Proof. vm_compute. reflexivity. Qed.

(** 2^-149 and 4^-63 = 2^-126 are exact, 2^-150 is 0, and 5^-2 < 3^-2. *)
Example C121_negative_case :
  map (fun p => match @F32_powi env_debug 32 (f32_of_Z (fst p)) (snd p) with Ok r => to_bits r | _ => -1 end) [(2, -149); (2, -150); (4, -63); (5, -2); (3, -2)] =
  [1; 0; 8388608; 1025758987; 1038323258].
Proof. vm_compute. reflexivity. Qed.
