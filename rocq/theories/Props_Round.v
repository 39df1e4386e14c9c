(** * C01-C11: bit operations and rounding to integers *)

From Coq Require Import ZArith Reals Bool List Lia Lra.
From Flocq Require Import Core IEEE754.BinarySingleNaN IEEE754.Binary IEEE754.Bits.
From Verif Require Import Base Spec Float TestEnv F32Lemmas BitLemmas P_Trunc P_Floor Literals P_Bits P_RoundEdge.
Open Scope Z_scope.

(** ** C01 *)
Theorem C01_bits_roundtrip : forall x b,
  0 <= to_bits x < 2 ^ 32 /\ from_bits (to_bits x) = x /\
  (0 <= b < 2 ^ 32 -> to_bits (from_bits b) = b).
Proof. exact bits_roundtrip. Qed.
Print Assumptions C01_bits_roundtrip.

Theorem C01_bits_decode : forall b, 0 <= b < 2 ^ 32 ->
  (bexp b < 255 -> fin (from_bits b) /\ val (from_bits b) = bval b) /\
  (bexp b = 255 -> bman b = 0 -> from_bits b = f32_inf (bsign b =? 1)) /\
  (bexp b = 255 -> bman b <> 0 -> nan (from_bits b)).
Proof. exact bits_decode. Qed.
Print Assumptions C01_bits_decode.

(** 0xC0200000 is -2.5; 0x7FC00001 is a NaN that keeps its payload. *)
Example C01_case : val (from_bits 0xC0200000) = (-2.5)%R /\
  nan (from_bits 0x7FC00001) /\ to_bits (from_bits 0x7FC00001) = 0x7FC00001.
Proof. split; [lit 0xC0200000; bpow_lit; lra|]. split; vm_compute; reflexivity. Qed.

(** ** C02 *)
Theorem C02_abs : forall x,
  to_bits (F32_abs x) = to_bits x mod 2 ^ 31 /\
  val (F32_abs x) = Rabs (val x) /\
  is_finite (F32_abs x) = is_finite x /\ is_nan (F32_abs x) = is_nan x /\
  is_infinite (F32_abs x) = is_infinite x /\ sign_bit (F32_abs x) = false /\
  F32_abs (F32_abs x) = F32_abs x /\ F32_abs (fneg x) = F32_abs x.
Proof. exact abs_spec. Qed.
Print Assumptions C02_abs.

Example C02_case : to_bits (F32_abs (from_bits 0xC0200000)) = 0x40200000 /\
  to_bits (F32_abs (from_bits 0xFFC00007)) = 0x7FC00007.
Proof. split; vm_compute; reflexivity. Qed.

(** ** C03 *)
Theorem C03_copysign : forall x s,
  to_bits (F32_copysign x s) = to_bits x mod 2 ^ 31 + (to_bits s / 2 ^ 31) * 2 ^ 31 /\
  F32_abs (F32_copysign x s) = F32_abs x /\
  sign_bit (F32_copysign x s) = sign_bit s /\
  Rabs (val (F32_copysign x s)) = Rabs (val x) /\
  (sign_bit s = sign_bit x -> F32_copysign x s = x) /\
  (sign_bit s <> sign_bit x -> F32_copysign x s = fneg x).
Proof. exact copysign_spec. Qed.
Print Assumptions C03_copysign.

(** copysign(2.5, -0.0) = -2.5. *)
Example C03_case : to_bits (F32_copysign (from_bits 0x40200000) (from_bits 0x80000000)) = 0xC0200000.
Proof. vm_compute. reflexivity. Qed.

(** ** C04 *)
Theorem C04_signum : forall {E : Env} x,
  (nan x -> nan (F32_signum x)) /\
  (is_nan x = false -> sign_bit x = false -> F32_signum x = from_bits 0x3F800000) /\
  (is_nan x = false -> sign_bit x = true -> F32_signum x = from_bits 0xBF800000).
Proof. exact @signum_spec. Qed.
Print Assumptions C04_signum.

(** signum(-0.0) = -1.0 and signum(+inf) = 1.0; the patterns are -1 and 1. *)
Example C04_case :
  to_bits (@F32_signum env_debug (from_bits 0x80000000)) = 0xBF800000 /\
  to_bits (@F32_signum env_debug (from_bits 0x7F800000)) = 0x3F800000 /\
  val (from_bits 0x3F800000) = 1%R /\ val (from_bits 0xBF800000) = (-1)%R.
Proof.
  split; [vm_compute; reflexivity|]. split; [vm_compute; reflexivity|].
  split; [lit 0x3F800000|lit 0xBF800000]; bpow_lit; lra.
Qed.

(** ** C05 *)
Theorem C05_trunc_exact : forall x, fin x -> (Rabs (val x) < bpow radix2 32)%R ->
  fin (F32_trunc x) /\ val (F32_trunc x) = IZR (Ztrunc (val x)) /\
  sign_bit (F32_trunc x) = sign_bit x.
Proof. exact trunc_exact. Qed.
Print Assumptions C05_trunc_exact.

(** trunc(-2.5) = -2.0. *)
Example C05_case : let x := from_bits 0xC0200000 in
  fin x /\ (Rabs (val x) < bpow radix2 32)%R /\ to_bits (F32_trunc x) = 0xC0000000.
Proof.
  split; [reflexivity|]. split; [|vm_compute; reflexivity].
  lit 0xC0200000. bpow_lit. apply Rabs_lt. lra.
Qed.

(** ** C06 *)

(** What [trunc] does on every finite |x| >= 1: with 2^e <= |x| < 2^(e+1) it cuts
    at the multiple of 2^(32*(e/32)), not at the integer. *)
Theorem C06_trunc_cut : forall x e, fin x -> 0 <= e ->
  (bpow radix2 e <= Rabs (val x) < bpow radix2 (e + 1))%R ->
  let q := 32 * (e / 32) in
  fin (F32_trunc x) /\ sign_bit (F32_trunc x) = sign_bit x /\
  val (F32_trunc x) = (sgn x * (IZR (Zfloor (Rabs (val x) * bpow radix2 (- q))) * bpow radix2 q))%R /\
  (F32_trunc x = x <-> exists n, Rabs (val x) = (IZR n * bpow radix2 q)%R).
Proof. exact trunc_cut. Qed.
Print Assumptions C06_trunc_cut.

(** All finite |x| >= 2^23 are integers, so [trunc] should return them unchanged. *)
Theorem C06_large_is_integer : forall x, fin x -> (bpow radix2 23 <= Rabs (val x))%R ->
  exists n, val x = IZR n.
Proof. exact large_integer. Qed.
Print Assumptions C06_large_is_integer.

(** "trunc returns the integer part of a number" fails: trunc(6442450944) = 4294967296. *)
Theorem C06_trunc_refuted : exists x, fin x /\ val x = 6442450944%R /\
  val (F32_trunc x) = 4294967296%R /\ val (F32_trunc x) <> IZR (Ztrunc (val x)).
Proof. exact trunc_wrong. Qed.
Print Assumptions C06_trunc_refuted.

Theorem C06_trunc_nonfinite : forall x, is_finite x = false -> F32_trunc x = f32_inf (sign_bit x).
Proof. exact trunc_nonfinite. Qed.
Print Assumptions C06_trunc_nonfinite.

(** ** C07 *)
Theorem C07_fract_exact : forall {E : Env} x, fin x -> (Rabs (val x) < bpow radix2 32)%R ->
  exists z, F32_fract x = Ok z /\ fin z /\ sign_bit z = sign_bit x /\
    val z = (val x - IZR (Ztrunc (val x)))%R /\ (Rabs (val z) < 1)%R /\
    fadd (F32_trunc x) z = x.
Proof. exact @fract_exact. Qed.
Print Assumptions C07_fract_exact.

(** fract(-2.75) = -0.75. *)
Example C07_case : let x := from_bits 0xC0300000 in
  fin x /\ (Rabs (val x) < bpow radix2 32)%R /\
  F32_fract (E := env_debug) x = Ok (from_bits 0xBF400000).
Proof.
  split; [reflexivity|]. split.
  - lit 0xC0300000. bpow_lit. apply Rabs_lt. lra.
  - apply ok_bits; vm_compute; reflexivity.
Qed.

Theorem C07_fract_total : forall {E : Env} x, exists z, F32_fract x = Ok z /\ sign_bit z = sign_bit x.
Proof. exact @fract_total. Qed.
Print Assumptions C07_fract_total.

(** Beyond 2^32 fract is wrong: 6442450944 is an integer, fract gives 0.5. *)
Theorem C07_fract_refuted : forall {E : Env}, exists x z, fin x /\ val x = 6442450944%R /\
  F32_fract x = Ok z /\ val z = (/ 2)%R.
Proof. exact @fract_wrong. Qed.
Print Assumptions C07_fract_refuted.

(** ** C08 *)
Theorem C08_floor_exact : forall {E : Env} x, fin x -> (Rabs (val x) <= bpow radix2 31)%R ->
  fin (F32_floor x) /\ val (F32_floor x) = IZR (Zfloor (val x)).
Proof. exact @floor_exact. Qed.
Print Assumptions C08_floor_exact.

(** floor(-2.5) = -3. *)
Example C08_case : let x := from_bits 0xC0200000 in
  fin x /\ (Rabs (val x) <= bpow radix2 31)%R /\ to_bits (@F32_floor env_debug x) = 0xC0400000.
Proof.
  split; [reflexivity|]. split; [|vm_compute; reflexivity].
  lit 0xC0200000. bpow_lit. apply Rabs_le. lra.
Qed.

(** ** C09: 0x4F000000 is 2^31, 0xCF000000 is -2^31. *)
Theorem C09_floor_saturates : forall {E : Env} x, is_nan x = false ->
  (fin x -> (bpow radix2 31 <= Rabs (val x))%R) ->
  F32_floor x = from_bits (if sign_bit x then 0xCF000000 else 0x4F000000).
Proof. exact @floor_big. Qed.
Print Assumptions C09_floor_saturates.

Theorem C09_ceil_saturates : forall {E : Env} x, is_nan x = false ->
  (fin x -> (bpow radix2 31 <= Rabs (val x))%R) ->
  F32_ceil x = from_bits (if sign_bit x then 0xCF000000 else 0x4F000000).
Proof. exact @ceil_big. Qed.
Print Assumptions C09_ceil_saturates.

Theorem C09_nan : forall {E : Env} x, nan x ->
  F32_floor x = f32_zero false /\ F32_ceil x = f32_zero true.
Proof. exact @floor_ceil_nan. Qed.
Print Assumptions C09_nan.

(** "The largest integer not above x" and "the smallest integer not below x" are
    both false of every finite |x| > 2^31. *)
Theorem C09_floor_ceil_wrong : forall {E : Env} x, fin x -> (bpow radix2 31 < Rabs (val x))%R ->
  val (F32_floor x) <> IZR (Zfloor (val x)) /\ val (F32_ceil x) <> IZR (Zceil (val x)).
Proof. exact @floor_ceil_wrong. Qed.
Print Assumptions C09_floor_ceil_wrong.

(** 3e9: floor returns 2147483648. *)
Example C09_case : let x := from_bits 0x4F32D05E in
  fin x /\ (bpow radix2 31 < Rabs (val x))%R /\ val x = 3000000000%R /\
  val (from_bits 0x4F000000) = 2147483648%R /\
  to_bits (@F32_floor env_release x) = 0x4F000000.
Proof.
  assert (V : val (from_bits 0x4F32D05E) = 3000000000%R) by (lit 0x4F32D05E; bpow_lit; lra).
  split; [reflexivity|]. split; [|split; [|split]].
  - rewrite V. bpow_lit. rewrite Rabs_pos_eq; lra.
  - exact V.
  - lit 0x4F000000. bpow_lit. lra.
  - vm_compute. reflexivity.
Qed.

(** ** C10 *)
Theorem C10_ceil_exact : forall {E : Env} x, fin x -> (Rabs (val x) <= bpow radix2 31)%R ->
  fin (F32_ceil x) /\ val (F32_ceil x) = IZR (Zceil (val x)).
Proof. exact @ceil_exact. Qed.
Print Assumptions C10_ceil_exact.

(** ceil(2.5) = 3, ceil(-2.5) = -2. *)
Example C10_case : let x := from_bits 0x40200000 in
  fin x /\ (Rabs (val x) <= bpow radix2 31)%R /\ to_bits (@F32_ceil env_debug x) = 0x40400000 /\
  to_bits (@F32_ceil env_debug (fneg x)) = 0xC0000000.
Proof.
  split; [reflexivity|]. split; [|split; vm_compute; reflexivity].
  lit 0x40200000. bpow_lit. apply Rabs_le. lra.
Qed.

(** ** C11 *)

(** 0x3EFFFFFF is the largest f32 below 0.5. *)
Theorem C11_round_exact : forall {E : Env} x, fin x -> (Rabs (val x) <= bpow radix2 23)%R ->
  Rabs (val x) <> val (from_bits 0x3EFFFFFF) ->
  fin (F32_round x) /\ val (F32_round x) = IZR (round_half_away (val x)).
Proof. exact @round_exact. Qed.
Print Assumptions C11_round_exact.

(** round(2.5) = 3, round(-2.5) = -3. *)
Example C11_case : let x := from_bits 0x40200000 in
  fin x /\ (Rabs (val x) <= bpow radix2 23)%R /\ Rabs (val x) <> val (from_bits 0x3EFFFFFF) /\
  to_bits (@F32_round env_debug x) = 0x40400000 /\
  to_bits (@F32_round env_debug (fneg x)) = 0xC0400000.
Proof.
  split; [reflexivity|]. split; [|split; [|split; vm_compute; reflexivity]].
  - lit 0x40200000. bpow_lit. apply Rabs_le. lra.
  - lit 0x40200000. lit 0x3EFFFFFF. bpow_lit. rewrite Rabs_pos_eq; lra.
Qed.

(** "round returns the nearest integer" fails at 0.49999997. *)
Theorem C11_round_refuted : forall {E : Env}, exists x, fin x /\ (0 < val x < / 2)%R /\
  F32_round x = from_bits 0x3F800000 /\ F32_round (fneg x) = from_bits 0xBF800000 /\
  val (F32_round x) <> IZR (round_half_away (val x)).
Proof. exact @round_wrong. Qed.
Print Assumptions C11_round_refuted.

(** From 2^23 to 2^24 every float is an integer; odd ones are moved away from zero. *)
Theorem C11_round_2p23_2p24 : forall {E : Env} x N, fin x -> Rabs (val x) = IZR N ->
  2 ^ 23 <= N < 2 ^ 24 ->
  fin (F32_round x) /\
  val (F32_round x) = (sgn x * IZR (if Z.even N then N else N + 1))%R.
Proof. exact @round_int24. Qed.
Print Assumptions C11_round_2p23_2p24.

(** round(8388609) = 8388610. *)
Example C11_case_odd : let x := from_bits 0x4B000001 in
  fin x /\ Rabs (val x) = 8388609%R /\ to_bits (@F32_round env_debug x) = 0x4B000002.
Proof.
  split; [reflexivity|]. split; [|vm_compute; reflexivity].
  lit 0x4B000001. bpow_lit. rewrite Rabs_pos_eq; lra.
Qed.

Theorem C11_round_2p24_2p31 : forall {E : Env} x, fin x ->
  (bpow radix2 24 <= Rabs (val x) <= bpow radix2 31)%R ->
  fin (F32_round x) /\ val (F32_round x) = val x.
Proof. exact @round_int31. Qed.
Print Assumptions C11_round_2p24_2p31.

Theorem C11_round_saturates : forall {E : Env} x, is_nan x = false ->
  (fin x -> (bpow radix2 31 <= Rabs (val x))%R) ->
  F32_round x = from_bits (if sign_bit x then 0xCF000000 else 0x4F000000).
Proof. exact @round_big. Qed.
Print Assumptions C11_round_saturates.

Theorem C11_round_nan : forall {E : Env} x, nan x -> F32_round x = f32_zero false.
Proof. exact @round_nan. Qed.
Print Assumptions C11_round_nan.
