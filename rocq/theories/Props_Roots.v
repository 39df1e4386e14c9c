(** * Properties C12-C21: Euclidean division, square root, inverses

    Statements only; proofs are in P_Euclid.v, P_Roots.v, P_InvSqrt.v. *)

From Coq Require Import ZArith Reals Bool List Lia Lra.
From Flocq Require Import Core IEEE754.Binary IEEE754.Bits.
From Verif Require Import Base Spec Float TestEnv F32Lemmas BitLemmas P_Trunc P_Floor Literals P_RoundEdge
  P_Euclid P_Roots P_InvSqrt.
Open Scope Z_scope.

Ltac npos b := split; [reflexivity|lit b; bpow_lit; lra].

(** ** C12 *)

(** The result is the exact Euclidean remainder, rounded once. *)
Theorem C12_rem_euclid : forall {E : Env} x y, fin x -> fin y -> val y <> 0%R ->
  let exact := (val x - IZR (euclid_quot (val x) (val y)) * val y)%R in
  fin (F32_rem_euclid x y) /\ val (F32_rem_euclid x y) = rnd exact /\
  (0 <= val (F32_rem_euclid x y) <= Rabs (val y))%R /\
  ((0 <= val x - IZR (Ztrunc (val x / val y)) * val y)%R -> val (F32_rem_euclid x y) = exact).
Proof.
  intros E x y Hx Hy Hz. destruct (frem_spec x y Hx Hy Hz) as (_ & _ & V & _). rewrite <- V.
  exact (rem_euclid_spec x y Hx Hy Hz).
Qed.
Print Assumptions C12_rem_euclid.

(** The quotient in that statement is the one with remainder in [0, |y|). *)
Theorem C12_euclid_quot_meaning : forall x y, y <> 0%R ->
  (0 <= x - IZR (euclid_quot x y) * y < Rabs y)%R.
Proof. exact euclid_range. Qed.
Print Assumptions C12_euclid_quot_meaning.

(** rem_euclid(-5.5, 2.0) = 0.5. *)
Example C12_case : fin (from_bits 0xC0B00000) /\ fin (from_bits 0x40000000) /\
  val (from_bits 0x40000000) <> 0%R /\
  to_bits (@F32_rem_euclid env_debug (from_bits 0xC0B00000) (from_bits 0x40000000)) = 0x3F000000.
Proof. repeat split; try (vm_compute; reflexivity). lit 0x40000000. bpow_lit. lra. Qed.

(** "0 <= result < |y|" fails: a tiny negative dividend gives y itself. *)
Theorem C12_rem_euclid_below_refuted : forall {E : Env}, exists x y, fin x /\ fin y /\ (0 < val y)%R /\
  F32_rem_euclid x y = y.
Proof. exact @rem_euclid_not_below. Qed.
Print Assumptions C12_rem_euclid_below_refuted.

Theorem C12_rem_euclid_nan : forall {E : Env} x y,
  nan x \/ nan y \/ is_infinite x = true \/ (fin y /\ val y = 0%R) -> nan (F32_rem_euclid x y).
Proof. exact @rem_euclid_nan. Qed.
Print Assumptions C12_rem_euclid_nan.

(** ** C13 *)

(** The error is exactly the one made by rounding x/y before truncating it. *)
Theorem C13_div_euclid : forall {E : Env} x y, fin x -> fin y -> val y <> 0%R ->
  (Rabs (val x / val y) <= bpow radix2 23)%R ->
  let t := (val x / val y)%R in
  fin (F32_div_euclid x y) /\
  val (F32_div_euclid x y) =
    IZR (euclid_quot (val x) (val y) + (Ztrunc (rnd t) - Ztrunc t)) /\
  Z.abs (Ztrunc (rnd t) - Ztrunc t) <= 1.
Proof. exact @div_euclid_spec. Qed.
Print Assumptions C13_div_euclid.

(** div_euclid(-5.5, 2.0) = -3. *)
Example C13_case : let x := from_bits 0xC0B00000 in let y := from_bits 0x40000000 in
  fin x /\ fin y /\ val y <> 0%R /\ (Rabs (val x / val y) <= bpow radix2 23)%R /\
  to_bits (@F32_div_euclid env_debug x y) = 0xC0400000.
Proof.
  intros x y. split; [reflexivity|]. split; [reflexivity|].
  split; [unfold y; lit 0x40000000; bpow_lit; lra|]. split; [|vm_compute; reflexivity].
  unfold x, y. lit 0x40000000. lit 0xC0B00000. bpow_lit. apply Rabs_le. lra.
Qed.

Theorem C13_div_euclid_exact : forall {E : Env} x y n, fin x -> fin y -> val y <> 0%R ->
  val x = (IZR n * val y)%R -> Z.abs n <= 2 ^ 23 ->
  val (F32_div_euclid x y) = IZR n.
Proof. exact @div_euclid_exact. Qed.
Print Assumptions C13_div_euclid_exact.

(** "div_euclid is the Euclidean quotient" fails at 1.0 / 0.1. *)
Theorem C13_div_euclid_refuted : forall {E : Env}, exists x y, fin x /\ fin y /\ val x = 1%R /\
  (0.1 < val y < 0.1 + / 100000000)%R /\
  val (F32_div_euclid x y) = 10%R /\ euclid_quot (val x) (val y) = 9.
Proof. exact @div_euclid_wrong. Qed.
Print Assumptions C13_div_euclid_refuted.

(** ** C14 *)

Theorem C14_sqrt_accuracy : forall {E : Env} x, normal_pos x ->
  exists z, F32_sqrt x = Ok z /\ normal_pos z /\
    ((1 - bpow radix2 (-24)) * sqrt (val x) <= val z <= 1.06067 * sqrt (val x))%R.
Proof. exact @sqrt_accuracy. Qed.
Print Assumptions C14_sqrt_accuracy.

(** sqrt(2.0) = 1.5, ratio 1.06066. *)
Example C14_case : normal_pos (from_bits 0x40000000) /\
  @F32_sqrt env_debug (from_bits 0x40000000) = Ok (from_bits 0x3FC00000).
Proof. split; [npos 0x40000000|apply ok_bits; vm_compute; reflexivity]. Qed.

(** ** C15 *)

Theorem C15_sqrt_total : forall {E : Env} x, exists z, F32_sqrt x = Ok z.
Proof. exact @sqrt_total. Qed.
Print Assumptions C15_sqrt_total.

Theorem C15_sqrt_monotone : forall {E : Env} x y, is_nan x = false -> is_nan y = false ->
  sign_bit x = false -> sign_bit y = false -> fle x y = true ->
  exists a b, F32_sqrt x = Ok a /\ F32_sqrt y = Ok b /\ fin a /\ fin b /\ (0 < val a <= val b)%R.
Proof. exact @sqrt_monotone. Qed.
Print Assumptions C15_sqrt_monotone.

(** sqrt(2.0) = 1.5 <= sqrt(4.0) = 2.0. *)
Example C15_case : let x := from_bits 0x40000000 in let y := from_bits 0x40800000 in
  is_nan x = false /\ is_nan y = false /\ sign_bit x = false /\ sign_bit y = false /\ fle x y = true /\
  @F32_sqrt env_debug y = Ok (from_bits 0x40000000).
Proof. repeat split; vm_compute; reflexivity. Qed.

(** ** C16 *)

Theorem C16_sqrt_nan : forall {E : Env} x, nan x \/ flt x F32_ZERO = true ->
  exists z, F32_sqrt x = Ok z /\ nan z.
Proof. exact @sqrt_neg_nan. Qed.
Print Assumptions C16_sqrt_nan.

Example C16_case : flt (from_bits 0xBF800000) F32_ZERO = true /\ flt (f32_inf true) F32_ZERO = true /\
  nan (from_bits 0x7FC00001).
Proof. repeat split; vm_compute; reflexivity. Qed.

(** sqrt(0) is 1.5*2^-64, sqrt(-0.0) is 1.5*2^64, sqrt(inf) is 2^64. *)
Theorem C16_sqrt_edges : forall {E : Env},
  F32_sqrt (f32_zero false) = Ok (from_bits 0x1FC00000) /\
  F32_sqrt (f32_zero true) = Ok (from_bits 0x5FC00000) /\
  F32_sqrt (f32_inf false) = Ok (from_bits 0x5F800000) /\
  val (from_bits 0x1FC00000) = (3 / 2 * bpow radix2 (-64))%R /\
  val (from_bits 0x5FC00000) = (3 / 2 * bpow radix2 64)%R /\
  val (from_bits 0x5F800000) = bpow radix2 64.
Proof. exact @sqrt_edges. Qed.
Print Assumptions C16_sqrt_edges.

(** ** C17 *)

Theorem C17_invsqrt_accuracy : forall {E : Env} x, normal_pos x ->
  exists z, F32_invsqrt x = Ok z /\ normal_pos z /\
    (Rabs (val z * sqrt (val x) - 1) <= 0.0347)%R.
Proof. exact @invsqrt_accuracy. Qed.
Print Assumptions C17_invsqrt_accuracy.

(** invsqrt(4.0) = 0.4831. *)
Example C17_case : normal_pos (from_bits 0x40800000) /\
  @F32_invsqrt env_debug (from_bits 0x40800000) = Ok (from_bits 0x3EF75A86).
Proof. split; [npos 0x40800000|apply ok_bits; vm_compute; reflexivity]. Qed.

(** ** C18 *)

Theorem C18_invsqrt_panic : forall {E : Env} x, overflow_checks = true ->
  (F32_invsqrt x = Panic <-> 0xBE6EB50D < to_bits x).
Proof. exact @invsqrt_panic_bits. Qed.
Print Assumptions C18_invsqrt_panic.

(** For finite x the panic set is a half-line of negative numbers, x < -0.2331. *)
Theorem C18_invsqrt_panic_value : forall {E : Env} x, overflow_checks = true -> fin x ->
  (F32_invsqrt x = Panic <-> (val x < val (from_bits 0xBE6EB50D))%R).
Proof. exact @invsqrt_panic_value. Qed.
Print Assumptions C18_invsqrt_panic_value.

Theorem C18_invsqrt_release : forall {E : Env} x, overflow_checks = false ->
  exists z, F32_invsqrt x = Ok z.
Proof. intros E x. exact (proj2 (invsqrt_panic x)). Qed.
Print Assumptions C18_invsqrt_release.

(** invsqrt(-1.0) panics with overflow checks; the threshold itself does not. *)
Example C18_case : @overflow_checks env_debug = true /\
  @F32_invsqrt env_debug (from_bits 0xBF800000) = Panic /\
  @F32_invsqrt env_debug (from_bits 0xBE6EB50D) = Ok (f32_zero false) /\
  (val (from_bits 0xBE6EB50D) < -0.2331)%R /\ (-0.2332 < val (from_bits 0xBE6EB50D))%R /\
  @overflow_checks env_release = false.
Proof.
  repeat split; try (vm_compute; reflexivity); lit 0xBE6EB50D; bpow_lit; lra.
Qed.

(** ** C19 *)

Theorem C19_invsqrt_antitone : forall {E : Env} x y, is_nan x = false -> is_nan y = false ->
  sign_bit x = false -> sign_bit y = false -> fle x y = true ->
  exists a b, F32_invsqrt x = Ok a /\ F32_invsqrt y = Ok b /\ fin a /\ fin b /\ (0 < val b <= val a)%R.
Proof. exact @invsqrt_antitone. Qed.
Print Assumptions C19_invsqrt_antitone.

Example C19_case : let x := from_bits 0x40000000 in let y := f32_inf false in
  is_nan x = false /\ is_nan y = false /\ sign_bit x = false /\ sign_bit y = false /\ fle x y = true /\
  @F32_invsqrt env_debug x = Ok (from_bits 0x3F375A86) /\
  @F32_invsqrt env_debug y = Ok (from_bits 0x1F775A86).
Proof. repeat split; try (apply ok_bits); vm_compute; reflexivity. Qed.

(** ** C20 *)

Theorem C20_inv_accuracy : forall {E : Env} x, normal_pos x -> (val x <= bpow radix2 126)%R ->
  normal_pos (F32_inv x) /\ (1 <= val x * val (F32_inv x) <= 9 / 8)%R.
Proof. exact @inv_accuracy. Qed.
Print Assumptions C20_inv_accuracy.

(** 0x7F000000 is 2^127. *)
Theorem C20_inv_involutive : forall {E : Env} x, is_nan x = false -> sign_bit x = false ->
  fle x (from_bits 0x7F000000) = true -> F32_inv (F32_inv x) = x.
Proof. exact @inv_involutive. Qed.
Print Assumptions C20_inv_involutive.

Theorem C20_inv_antitone : forall {E : Env} x y, is_nan x = false -> is_nan y = false ->
  sign_bit x = false -> sign_bit y = false -> fle x y = true ->
  fle (F32_inv y) (F32_inv x) = true.
Proof. exact @inv_antitone. Qed.
Print Assumptions C20_inv_antitone.

(** inv(1.5) = 0.75: the worst case 1.125. *)
Example C20_case : let x := from_bits 0x3FC00000 in
  normal_pos x /\ (val x <= bpow radix2 126)%R /\ is_nan x = false /\ sign_bit x = false /\
  fle x (from_bits 0x7F000000) = true /\
  to_bits (@F32_inv env_debug x) = 0x3F400000 /\ val (from_bits 0x7F000000) = bpow radix2 127.
Proof.
  intros x. split; [unfold x; npos 0x3FC00000|].
  split; [unfold x; lit 0x3FC00000; bpow_lit; lra|].
  repeat split; try (vm_compute; reflexivity). lit 0x7F000000. bpow_lit. lra.
Qed.

(** ** C21 *)

Theorem C21_inv_edges : forall {E : Env} x,
  (fin x -> sign_bit x = true -> F32_inv x = f32_zero false) /\
  (fin x -> (bpow radix2 127 < val x)%R -> F32_inv x = f32_zero false) /\
  F32_inv (f32_inf false) = f32_zero false /\ F32_inv (f32_inf true) = f32_zero true /\
  (nan x -> nan (F32_inv x)).
Proof. exact @inv_edges. Qed.
Print Assumptions C21_inv_edges.

(** inv(-2.0) = 0. *)
Example C21_case : let x := from_bits 0xC0000000 in fin x /\ sign_bit x = true /\
  to_bits (@F32_inv env_debug x) = 0 /\ nan (from_bits 0xFFC00000).
Proof. repeat split; vm_compute; reflexivity. Qed.
