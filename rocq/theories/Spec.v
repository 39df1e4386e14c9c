(** * Specification vocabulary, independent of the model's helpers

    Only the IEEE-754 reading of bit patterns and standard mathematics. *)

From Coq Require Import ZArith Reals Bool List.
From Flocq Require Import Core IEEE754.Binary IEEE754.Bits.
From Verif Require Import Base.
Open Scope Z_scope.

(** The fields of a 32-bit pattern: sign, biased exponent, mantissa. *)
Definition bsign (b : Z) : Z := b / 2 ^ 31.
Definition bexp (b : Z) : Z := (b / 2 ^ 23) mod 256.
Definition bman (b : Z) : Z := b mod 2 ^ 23.

(** The real number denoted by a pattern whose exponent field is below 255. *)
Definition bval (b : Z) : R :=
  ((if bsign b =? 0 then 1 else -1) *
   (if bexp b =? 0 then IZR (bman b) * bpow radix2 (-149)
    else IZR (2 ^ 23 + bman b) * bpow radix2 (bexp b - 150)))%R.

(** The real value of a finite float (0 for infinities and NaN). *)
Definition val (x : f32) : R := B2R 24 128 x.

Definition fin (x : f32) : Prop := is_finite x = true.
Definition nan (x : f32) : Prop := is_nan x = true.

(** Positive normal number. *)
Definition normal_pos (x : f32) : Prop := fin x /\ (bpow radix2 (-126) <= val x)%R.

(** Round to nearest even in binary32 (unbounded above). *)
Definition rnd (r : R) : R := round radix2 (FLT_exp (-149) 24) ZnearestE r.

(** Nearest integer, halfway cases away from zero. *)
Definition round_half_away (r : R) : Z :=
  if Rle_bool 0 r then Zfloor (r + 1 / 2)%R else Zceil (r - 1 / 2)%R.

(** -1 or 1 according to the sign bit. *)
Definition sgn (x : f32) : R := if sign_bit x then (-1)%R else 1%R.

(** Euclidean quotient of reals: the integer q with 0 <= x - q*y < |y|. *)
Definition euclid_quot (x y : R) : Z := if Rlt_bool 0 y then Zfloor (x / y) else Zceil (x / y).

(** ** Machine integers *)

(** The values of an integer type, and reduction modulo 2^bits into it. *)
Definition fits (t : ity) (z : Z) : Prop :=
  if ity_signed t then - 2 ^ (ity_bits t - 1) <= z < 2 ^ (ity_bits t - 1)
  else 0 <= z < 2 ^ ity_bits t.
Definition wraps_to (t : ity) (z w : Z) : Prop := fits t w /\ exists k, w = z + k * 2 ^ ity_bits t.

(** The integer types of the crate. *)
Definition int_type (t : ity) : Prop := In t (i8 :: i16 :: i32 :: u8 :: u16 :: u32 :: nil).

(** [r] is the exact integer [z] where it fits; otherwise a panic with overflow
    checks, the wrapped value without. *)
Definition machine {E : Env} (t : ity) (z : Z) (r : res Z) : Prop :=
  (fits t z -> r = Ok z) /\
  (~ fits t z -> if overflow_checks then r = Panic else exists w, r = Ok w /\ wraps_to t z w).

(** The outcome of an operation that computes several machine integers. *)
Definition all_machine {E : Env} (t : ity) (zs : list Z) (r : res (list Z)) : Prop :=
  (Forall (fits t) zs -> r = Ok zs) /\
  (~ Forall (fits t) zs ->
     if overflow_checks then r = Panic else exists ws, r = Ok ws /\ Forall2 (wraps_to t) zs ws).

(** Exact sums, and the condition that no partial sum leaves the type. *)
Definition zsum (l : list Z) : Z := fold_right Z.add 0 l.
Definition prefixes_fit (t : ity) (l : list Z) : Prop :=
  forall k, (k <= length l)%nat -> fits t (zsum (firstn k l)).

(** ** Floats compared up to the choice of NaN *)

(** Equal, or both NaN. *)
Definition same (x y : f32) : Prop := x = y \/ (nan x /\ nan y).
(** Negations of each other as numbers, or both NaN. *)
Definition opposite (x y : f32) : Prop := (nan x /\ nan y) \/ feq x (fneg y) = true.

(** ** Euclidean norm *)

(** The square of a component is zero or a normal number. *)
Definition sq_ok (a : f32) : Prop :=
  fin a /\ (val a = 0 \/ bpow radix2 (-126) <= val a * val a <= bpow radix2 125)%R.

(** The exact sum of the squares of some floats. *)
Definition rsumsq (l : list f32) : R := fold_right (fun a r => val a * val a + r)%R 0%R l.

(** The exact sum of some floats. *)
Definition rsum (l : list f32) : R := fold_right (fun a r => val a + r)%R 0%R l.
