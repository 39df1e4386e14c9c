(** * C92-C96: operators, comparisons, sums, constants and num-traits of F32 (float.rs) *)

From Coq Require Import ZArith Reals Bool List Lia Lra.
From Flocq Require Import Core IEEE754.Binary IEEE754.Bits.
From Verif Require Import Base Spec SpecOps Float F32Wrap TestEnv P_Wrap.
Import ListNotations.
Open Scope Z_scope.

(** ** C92: arithmetic is correctly rounded in every form *)

Theorem C92_add : forall {E : Env} x y, fin x -> fin y ->
  Forall (fun r => ieee r (val x + val y))
    [f32_0 (F32_add (mkF32 x) (mkF32 y)); f32_0 (F32_add_f32 (mkF32 x) y); f32_0 (f32_add_F32 x (mkF32 y));
     f32_0 (F32_add_assign (mkF32 x) (mkF32 y)); f32_0 (F32_add_assign_f32 (mkF32 x) y); f32_add_assign_F32 x (mkF32 y)].
Proof. exact @add_all. Qed.
Print Assumptions C92_add.

Theorem C92_sub : forall {E : Env} x y, fin x -> fin y ->
  Forall (fun r => ieee r (val x - val y))
    [f32_0 (F32_sub (mkF32 x) (mkF32 y)); f32_0 (F32_sub_f32 (mkF32 x) y); f32_0 (f32_sub_F32 x (mkF32 y));
     f32_0 (F32_sub_assign (mkF32 x) (mkF32 y)); f32_0 (F32_sub_assign_f32 (mkF32 x) y); f32_sub_assign_F32 x (mkF32 y)].
Proof. exact @sub_all. Qed.
Print Assumptions C92_sub.

Theorem C92_mul : forall {E : Env} x y, fin x -> fin y ->
  Forall (fun r => ieee r (val x * val y))
    [f32_0 (F32_mul (mkF32 x) (mkF32 y)); f32_0 (F32_mul_f32 (mkF32 x) y); f32_0 (f32_mul_F32 x (mkF32 y));
     f32_0 (F32_mul_assign (mkF32 x) (mkF32 y)); f32_0 (F32_mul_assign_f32 (mkF32 x) y); f32_mul_assign_F32 x (mkF32 y)].
Proof. exact @mul_all. Qed.
Print Assumptions C92_mul.

Theorem C92_div : forall {E : Env} x y, fin x -> fin y ->
  Forall (fun r => (val y <> 0%R -> ieee r (val x / val y)) /\
                   (val y = 0%R -> val x <> 0%R -> r = f32_inf (xorb (sign_bit x) (sign_bit y))) /\
                   (val y = 0%R -> val x = 0%R -> nan r))
    [f32_0 (F32_div (mkF32 x) (mkF32 y)); f32_0 (F32_div_f32 (mkF32 x) y); f32_0 (f32_div_F32 x (mkF32 y));
     f32_0 (F32_div_assign (mkF32 x) (mkF32 y)); f32_0 (F32_div_assign_f32 (mkF32 x) y); f32_div_assign_F32 x (mkF32 y)].
Proof. exact @div_all. Qed.
Print Assumptions C92_div.

Theorem C92_rem : forall {E : Env} x y,
  Forall (fun r =>
    (fin x -> fin y -> val y <> 0%R -> fin r /\ sign_bit r = sign_bit x /\
       val r = (val x - IZR (Ztrunc (val x / val y)) * val y)%R) /\
    (nan x \/ nan y \/ is_infinite x = true \/ (fin y /\ val y = 0%R) -> nan r) /\
    (fin x -> is_infinite y = true -> r = x))
    [f32_0 (F32_rem (mkF32 x) (mkF32 y)); f32_0 (F32_rem_f32 (mkF32 x) y); f32_0 (f32_rem_F32 x (mkF32 y));
     f32_0 (F32_rem_assign (mkF32 x) (mkF32 y)); f32_0 (F32_rem_assign_f32 (mkF32 x) y)].
Proof. exact @rem_all. Qed.
Print Assumptions C92_rem.

Theorem C92_nan : forall {E : Env} x y, nan x \/ nan y ->
  Forall nan [f32_0 (F32_add (mkF32 x) (mkF32 y)); f32_0 (F32_add_f32 (mkF32 x) y); f32_0 (f32_add_F32 x (mkF32 y));
     f32_0 (F32_add_assign (mkF32 x) (mkF32 y)); f32_0 (F32_add_assign_f32 (mkF32 x) y); f32_add_assign_F32 x (mkF32 y);
     f32_0 (F32_sub (mkF32 x) (mkF32 y)); f32_0 (F32_sub_f32 (mkF32 x) y); f32_0 (f32_sub_F32 x (mkF32 y));
     f32_0 (F32_sub_assign (mkF32 x) (mkF32 y)); f32_0 (F32_sub_assign_f32 (mkF32 x) y); f32_sub_assign_F32 x (mkF32 y);
     f32_0 (F32_mul (mkF32 x) (mkF32 y)); f32_0 (F32_mul_f32 (mkF32 x) y); f32_0 (f32_mul_F32 x (mkF32 y));
     f32_0 (F32_mul_assign (mkF32 x) (mkF32 y)); f32_0 (F32_mul_assign_f32 (mkF32 x) y); f32_mul_assign_F32 x (mkF32 y);
     f32_0 (F32_div (mkF32 x) (mkF32 y)); f32_0 (F32_div_f32 (mkF32 x) y); f32_0 (f32_div_F32 x (mkF32 y));
     f32_0 (F32_div_assign (mkF32 x) (mkF32 y)); f32_0 (F32_div_assign_f32 (mkF32 x) y); f32_div_assign_F32 x (mkF32 y)].
Proof. exact @arith_nan. Qed.
Print Assumptions C92_nan.

Theorem C92_neg : forall x,
  to_bits (f32_0 (F32_neg (mkF32 x))) = (if 2 ^ 31 <=? to_bits x then to_bits x - 2 ^ 31 else to_bits x + 2 ^ 31) /\
  val (f32_0 (F32_neg (mkF32 x))) = (- val x)%R /\ F32_neg (F32_neg (mkF32 x)) = mkF32 x.
Proof. exact @neg_all. Qed.
Print Assumptions C92_neg.

(** 7 - 3 = 4, 7 / 3 rounds down to 0x40155555, -7 % 3 = -1, MAX + MAX = inf, 1 / -0 = -inf. *)
Example C92_cases : let e := env_debug in let f := from_bits in
  to_bits (f32_sub_assign_F32 (f 0x40E00000) (mkF32 (f 0x40400000))) = 0x40800000 /\
  to_bits (f32_0 (f32_div_F32 (f 0x40E00000) (mkF32 (f 0x40400000)))) = 0x40155555 /\
  to_bits (f32_0 (F32_rem_f32 (mkF32 (f 0xC0E00000)) (f 0x40400000))) = 0xBF800000 /\
  to_bits (f32_0 (F32_add (mkF32 F32_MAX) (mkF32 F32_MAX))) = 0x7F800000 /\
  to_bits (f32_0 (F32_div_f32 (mkF32 F32_ONE) (f 0x80000000))) = 0xFF800000.
Proof. repeat split; vm_compute; reflexivity. Qed.

(** ** C93: comparison *)

Theorem C93_partial_cmp : forall x y,
  Forall (fun r => (is_nan x = false -> is_nan y = false -> r = Some (Rcompare (key x) (key y))) /\ (r = None <-> nan x \/ nan y))
    [F32_partial_cmp (mkF32 x) (mkF32 y); F32_partial_cmp_f32 (mkF32 x) y; f32_partial_cmp_F32 x (mkF32 y)].
Proof. exact @cmp_all. Qed.
Print Assumptions C93_partial_cmp.

Theorem C93_eq : forall x y,
  Forall (fun r : bool => (r = true <-> is_nan x = false /\ is_nan y = false /\
      (to_bits x = to_bits y \/ (exists s t, x = f32_zero s /\ y = f32_zero t))))
    [F32_eq (mkF32 x) (mkF32 y); F32_eq_f32 (mkF32 x) y; f32_eq_F32 x (mkF32 y)].
Proof. exact @eq_all. Qed.
Print Assumptions C93_eq.

Theorem C93_swap : forall x y, F32_partial_cmp y x = option_map CompOpp (F32_partial_cmp x y).
Proof. exact @cmp_swap. Qed.
Print Assumptions C93_swap.

Theorem C93_trans : forall x y z, F32_partial_cmp x y = Some Lt -> F32_partial_cmp y z = Some Lt -> F32_partial_cmp x z = Some Lt.
Proof. exact @cmp_trans. Qed.
Print Assumptions C93_trans.

Example C93_cases : F32_eq_f32 (mkF32 (from_bits 0)) (from_bits 0x80000000) = true /\
  F32_partial_cmp (mkF32 (from_bits 0xBF800000)) (mkF32 (from_bits 1)) = Some Lt /\
  F32_partial_cmp_f32 (mkF32 (from_bits 0x7F800000)) F32_MAX = Some Gt /\
  F32_partial_cmp (mkF32 (from_bits 0x7FC00000)) (mkF32 (from_bits 0x7FC00000)) = None.
Proof. repeat split; vm_compute; reflexivity. Qed.

(** ** C94: sums and products *)

Theorem C94_sum : forall {E : Env} l, Forall fin l -> Z.of_nat (length l) <= 2 ^ 20 -> (rabssum l <= bpow radix2 126)%R ->
  fin (f32_0 (F32_iter_sum (map F32_from_f32 l))) /\
  (Rabs (val (f32_0 (F32_iter_sum (map F32_from_f32 l))) - rsum l) <= 1.1 * INR (length l) * bpow radix2 (-24) * rabssum l)%R.
Proof. exact @iter_sum_error. Qed.
Print Assumptions C94_sum.

Theorem C94_product : forall {E : Env} l, Forall fin l -> Z.of_nat (length l) <= 2 ^ 20 ->
  (forall k, (k <= length l)%nat -> (bpow radix2 (-124) <= Rabs (rprod (firstn k l)) <= bpow radix2 126)%R) ->
  fin (f32_0 (F32_iter_product (map F32_from_f32 l))) /\
  (Rabs (val (f32_0 (F32_iter_product (map F32_from_f32 l))) - rprod l) <= 1.1 * INR (length l) * bpow radix2 (-24) * Rabs (rprod l))%R.
Proof. exact @iter_prod_error. Qed.
Print Assumptions C94_product.

Theorem C94_nan : forall {E : Env} l, Exists nan l ->
  nan (f32_0 (F32_iter_sum (map F32_from_f32 l))) /\ nan (f32_0 (F32_iter_product (map F32_from_f32 l))).
Proof. exact @iter_nan. Qed.
Print Assumptions C94_nan.

(** 1 + 2^-24 + 2^-24 gives 1 (the exact sum is 1 + 2^-23); 2 * 3 * 0.5 = 3. *)
Example C94_cases : let e := env_debug in let w l := map F32_from_f32 (map from_bits l) in
  to_bits (f32_0 (F32_iter_sum (w [0x3F800000; 0x33800000; 0x33800000]))) = 0x3F800000 /\
  to_bits (f32_0 (F32_iter_product (w [0x40000000; 0x40400000; 0x3F000000]))) = 0x40400000 /\
  to_bits (f32_0 (F32_iter_product [])) = 0x3F800000.
Proof. repeat split; vm_compute; reflexivity. Qed.

(** ** C95: constants and classification *)

Theorem C95_extremes : (fin F32_MIN /\ fin F32_MAX /\ forall x, fin x -> val F32_MIN <= val x <= val F32_MAX)%R /\
  (fin F32_MIN_POSITIVE /\ forall x, fin x -> bexp (to_bits x) <> 0%Z -> val F32_MIN_POSITIVE <= Rabs (val x))%R /\
  (val F32_MAX = bpow radix2 128 - bpow radix2 104 /\ val F32_MIN = - val F32_MAX /\
   val F32_MIN_POSITIVE = bpow radix2 (-126) /\ val F32_EPSILON = bpow radix2 (-23))%R.
Proof. exact @const_spec. Qed.
Print Assumptions C95_extremes.

Theorem C95_epsilon : forall {E : Env}, (fin (fadd F32_ONE F32_EPSILON) /\ val (fadd F32_ONE F32_EPSILON) = 1 + val F32_EPSILON)%R /\
  (forall x, fin x -> (1 < val x)%R -> (1 + val F32_EPSILON <= val x)%R).
Proof. exact @epsilon_gap. Qed.
Print Assumptions C95_epsilon.

Theorem C95_exponents : (bpow radix2 (F32_MIN_EXP - 1) = val F32_MIN_POSITIVE)%R /\
  (bpow radix2 (F32_MAX_EXP - 1) <= val F32_MAX < bpow radix2 F32_MAX_EXP)%R /\
  (bpow (Build_radix 10 eq_refl) (F32_MIN_10_EXP - 1) < val F32_MIN_POSITIVE <= bpow (Build_radix 10 eq_refl) F32_MIN_10_EXP)%R /\
  (bpow (Build_radix 10 eq_refl) F32_MAX_10_EXP <= val F32_MAX < bpow (Build_radix 10 eq_refl) (F32_MAX_10_EXP + 1))%R.
Proof. exact @ten_exps. Qed.
Print Assumptions C95_exponents.

Theorem C95_digits : F32_RADIX = 2 /\ (10 ^ F32_DIGITS < F32_RADIX ^ (F32_MANTISSA_DIGITS - 1) < 10 ^ (F32_DIGITS + 1)) /\
  (forall x, fin x -> exists m e, Z.abs m < F32_RADIX ^ F32_MANTISSA_DIGITS /\ val x = (IZR m * bpow radix2 e)%R).
Proof. exact @digits_fit. Qed.
Print Assumptions C95_digits.

Theorem C95_classify : forall x,
  (F32_is_nan (mkF32 x) = true <-> bexp (to_bits x) = 255 /\ bman (to_bits x) <> 0) /\
  (F32_is_infinite (mkF32 x) = true <-> bexp (to_bits x) = 255 /\ bman (to_bits x) = 0) /\
  (F32_is_finite (mkF32 x) = true <-> bexp (to_bits x) < 255) /\
  (F32_is_sign_negative (mkF32 x) = true <-> 2 ^ 31 <= to_bits x) /\
  (F32_is_sign_positive (mkF32 x) = true <-> to_bits x < 2 ^ 31).
Proof. exact @classify_all. Qed.
Print Assumptions C95_classify.

Example C95_cases : F32_is_finite (mkF32 (from_bits 0x7F7FFFFF)) = true /\ F32_is_infinite (mkF32 (from_bits 0xFF800000)) = true /\
  F32_is_nan (mkF32 (from_bits 0xFF800001)) = true /\ F32_is_sign_positive (mkF32 (from_bits 0x80000000)) = false /\
  bexp (to_bits (from_bits 0x00000001)) = 0.
Proof. repeat split; vm_compute; reflexivity. Qed.

(** ** C96: num-traits *)

Theorem C96_num_traits : forall {E : Env} x,
  (F32_is_zero (mkF32 x) = true <-> fin x /\ val x = 0%R) /\
  (F32_is_one (mkF32 x) = true <-> to_bits x = 0x3F800000) /\
  (is_nan x = false -> F32_eq (F32_add (mkF32 x) F32_zero) (mkF32 x) = true /\ F32_eq (F32_add F32_zero (mkF32 x)) (mkF32 x) = true) /\
  (is_nan x = false -> F32_mul (mkF32 x) F32_one = mkF32 x /\ F32_mul F32_one (mkF32 x) = mkF32 x) /\
  (normal_pos x -> (val x <= bpow radix2 126)%R -> (1 <= val x * val (f32_0 (F32_trait_inv (mkF32 x))) <= 9 / 8)%R) /\
  F32_default = F32_zero.
Proof. exact @num_zero. Qed.
Print Assumptions C96_num_traits.

(** -0 is zero; 1.0000001 is not one; inv(2.0) is 0.5. *)
Example C96_cases : F32_is_zero (mkF32 (from_bits 0x80000000)) = true /\ F32_is_one (mkF32 (from_bits 0x3F800001)) = false /\
  to_bits (f32_0 (@F32_trait_inv env_debug (mkF32 (from_bits 0x40000000)))) = 0x3F000000.
Proof. repeat split; vm_compute; reflexivity. Qed.
