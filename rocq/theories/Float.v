(** * Model of src/float.rs and src/float/*.rs

    The newtype [F32] is identified with [f32].  A function returns [res f32]
    when its Rust source contains an integer operation or assertion that can
    panic, [f32] otherwise.  Line numbers refer to files in /repo/src. *)

From Coq Require Import ZArith Bool List.
From Flocq Require Import Core IEEE754.BinarySingleNaN IEEE754.Binary IEEE754.Bits.
From Verif Require Import Base.
Import ListNotations.
Open Scope Z_scope.

(** ** Constants *)

(** float.rs 49-63. *)
Definition SIGN_MASK : Z := 0x80000000.
Definition EXPONENT_MASK : Z := 0x7F800000.
Definition MANTISSA_MASK : Z := 0x007FFFFF.
Definition EXPONENT_BIAS : Z := 127.
Definition MANTISSA_BITS : Z := 23.

(** float.rs 72, 75, 91, 118, 121. *)
Definition F32_ZERO : f32 := f32_zero false.
Definition F32_ONE : f32 := from_bits 0x3F800000.
Definition F32_EPSILON : f32 := from_bits 0x34000000.
Definition F32_INFINITY : f32 := f32_inf false.
Definition F32_NEG_INFINITY : f32 := f32_inf true.

(** Float literals and [core::f32::consts], by bit pattern.  That each pattern is
    the correct rounding of the decimal (or of the mathematical constant) is
    proved in Literals.v. *)
Definition c_0_25 : f32 := from_bits 0x3E800000.
Definition c_0_5 : f32 := from_bits 0x3F000000.
Definition c_2 : f32 := from_bits 0x40000000.
Definition c_4 : f32 := from_bits 0x40800000.
Definition c_8 : f32 := from_bits 0x41000000.
Definition c_16 : f32 := from_bits 0x41800000.
Definition c_28 : f32 := from_bits 0x41E00000.
Definition c_56 : f32 := from_bits 0x42600000.
Definition c_70 : f32 := from_bits 0x428C0000.
Definition c_0_225 : f32 := from_bits 0x3E666666.
Definition c_PI : f32 := from_bits 0x40490FDB.
Definition c_FRAC_PI_2 : f32 := from_bits 0x3FC90FDB.
Definition c_FRAC_1_PI : f32 := from_bits 0x3EA2F983.
Definition c_LOG2_E : f32 := from_bits 0x3FB8AA3B.
Definition c_LOG10_E : f32 := from_bits 0x3EDE5BD9.
Definition c_LN_2 : f32 := from_bits 0x3F317218.
Definition c_E : f32 := from_bits 0x402DF854.
(** atan.rs 22, atan2.rs 25: [0.596_227]. *)
Definition c_B : f32 := from_bits 0x3F18A255.
(** ln.rs 39-41. *)
Definition c_1_7417939 : f32 := from_bits 0x3FDEF31A.
Definition c_2_8212026 : f32 := from_bits 0x40348E95.
Definition c_1_4699568 : f32 := from_bits 0x3FBC278B.
Definition c_0_44717955 : f32 := from_bits 0x3EE4F4B8.
Definition c_0_056570851 : f32 := from_bits 0x3D67B6D6.

(** ** src/float.rs *)

(** float.rs 182-186. *)
Definition extract_exponent_bits (x : f32) : Z :=
  shr32 (Z.land (to_bits x) EXPONENT_MASK) MANTISSA_BITS.

(** float.rs 189-191.  The i32 subtraction cannot overflow (the field is in
    0..255), so it is modelled as plain subtraction. *)
Definition extract_exponent_value (x : f32) : Z :=
  extract_exponent_bits x - EXPONENT_BIAS.

(** float.rs 194-196. *)
Definition without_sign (x : f32) : f32 :=
  from_bits (Z.land (to_bits x) (not32 SIGN_MASK)).

(** float.rs 199-207. *)
Definition set_exponent {E : Env} (x : f32) (exponent : Z) : res f32 :=
  if debug_assertions && negb ((exponent <=? 127) && (-128 <=? exponent)) then Panic
  else
    let without_exponent := Z.land (to_bits x) (not32 EXPONENT_MASK) in
    s <- arith i32 (exponent + EXPONENT_BIAS) ;;
    let only_exponent := shl32 (as_u32 s) MANTISSA_BITS in
    Ok (from_bits (Z.lor without_exponent only_exponent)).

(** float.rs 210-224. *)
Definition is_integer (x : f32) : bool :=
  let exponent := extract_exponent_value x in
  let exponent_clamped := Z.max exponent 0 in
  let fractional_part := Z.land (shl32 (to_bits x) exponent_clamped) MANTISSA_MASK in
  fractional_part =? 0.

(** float.rs 227-235. *)
Definition is_even (x : f32) : bool :=
  if 31 <=? extract_exponent_value x then true
  else Z.rem (to_i32 x) 2 =? 0.

(** float.rs, [Product for F32] and [Sum for F32]: the standard library folds
    from 1.0 and from a zero. *)
Definition F32_product {E : Env} (l : list f32) : f32 := fold_left fmul l F32_ONE.
Definition F32_sum {E : Env} (l : list f32) : f32 := fold_left fadd l (f32_zero sum_start).

(** float.rs, [From<i8>], [From<i16>], [From<u8>], [From<u16>] [for F32]. *)
Definition F32_from_int (n : Z) : f32 := f32_of_Z n.

(** ** Bit operations *)

(** abs.rs 11-13. *)
Definition F32_abs (x : f32) : f32 := from_bits (Z.land (to_bits x) (not32 SIGN_MASK)).

(** copysign.rs 8-13. *)
Definition F32_copysign (x sign : f32) : f32 :=
  let source_sign := Z.land (to_bits sign) SIGN_MASK in
  let signless := Z.land (to_bits x) (not32 SIGN_MASK) in
  from_bits (Z.lor signless source_sign).

(** signum.rs 11-17. *)
Definition F32_signum {E : Env} (x : f32) : f32 :=
  if is_nan x then f32_NAN else F32_copysign F32_ONE x.

(** ** Rounding to integers *)

(** trunc.rs 7-29. *)
Definition F32_trunc (x : f32) : f32 :=
  let x_bits := to_bits x in
  let exponent := extract_exponent_value x in
  if exponent <? 0 then F32_copysign F32_ZERO x
  else
    let exponent_clamped := Z.max exponent 0 in
    let fractional_part := Z.land (shl32 x_bits exponent_clamped) MANTISSA_MASK in
    if fractional_part =? 0 then x
    else
      let fractional_mask := shr32 fractional_part exponent_clamped in
      from_bits (Z.land x_bits (not32 fractional_mask)).

(** fract.rs 8-39.  The u32 subtractions and the addition are checked. *)
Definition F32_fract {E : Env} (x : f32) : res f32 :=
  let x_bits := to_bits x in
  let exponent := extract_exponent_value x in
  if exponent <? 0 then Ok x
  else
    let fractional_part := Z.land (shl32 x_bits exponent) MANTISSA_MASK in
    if fractional_part =? 0 then Ok (F32_copysign F32_ZERO x)
    else
      d <- arith u32 (lz32 fractional_part - (32 - MANTISSA_BITS)) ;;
      exponent_shift <- arith u32 (d + 1) ;;
      let fractional_normalized :=
        Z.land (shl32 fractional_part exponent_shift) MANTISSA_MASK in
      e <- arith u32 (EXPONENT_BIAS - exponent_shift) ;;
      let new_exponent_bits := shl32 e MANTISSA_BITS in
      Ok (F32_copysign (from_bits (Z.lor fractional_normalized new_exponent_bits)) x).

(** floor.rs 7-15. *)
Definition F32_floor {E : Env} (x : f32) : f32 :=
  let res := f32_of_Z (to_i32 x) in
  if flt x res then fsub res F32_ONE else res.

(** ceil.rs 7-9. *)
Definition F32_ceil {E : Env} (x : f32) : f32 := fneg (F32_floor (fneg x)).

(** round.rs 7-9. *)
Definition F32_round {E : Env} (x : f32) : f32 :=
  f32_of_Z (to_i32 (fadd x (F32_copysign c_0_5 x))).

(** ** Euclidean division *)

(** rem_euclid.rs 7-15. *)
Definition F32_rem_euclid {E : Env} (x rhs : f32) : f32 :=
  let r := frem x rhs in
  if fge r F32_ZERO then r else fadd r (F32_abs rhs).

(** div_euclid.rs 7-17. *)
Definition F32_div_euclid {E : Env} (x rhs : f32) : f32 :=
  let q := F32_trunc (fdiv x rhs) in
  if fge (frem x rhs) F32_ZERO then q
  else if fgt rhs F32_ZERO then fsub q F32_ONE
  else fadd q F32_ONE.

(** ** Roots and inverses *)

(** sqrt.rs 11-17. *)
Definition F32_sqrt {E : Env} (x : f32) : res f32 :=
  if fge x F32_ZERO then
    s <- arith u32 (to_bits x + 0x3F800000) ;;
    Ok (from_bits (Z.shiftr s 1))
  else Ok f32_NAN.

(** invsqrt.rs 9-11. *)
Definition F32_invsqrt {E : Env} (x : f32) : res f32 :=
  d <- arith u32 (0x5F375A86 - Z.shiftr (to_bits x) 1) ;;
  Ok (from_bits d).

(** inv.rs 12-36.  [checked_sub] is [None] exactly when the difference is
    negative. *)
Definition F32_inv {E : Env} (x : f32) : f32 :=
  let d := 0x7F000000 - to_bits x in
  if 0 <=? d then from_bits d
  else if is_infinite x then (if sign_bit x then f32_zero true else f32_zero false)
  else if is_nan x then f32_NAN
  else f32_zero false.

(** recip.rs 7-22. *)
Definition F32_recip {E : Env} (x0 : f32) : f32 :=
  let sx := if flt x0 F32_ZERO then fneg F32_ONE else F32_ONE in
  let x := fmul x0 sx in
  let v := from_bits (wrap u32 (0x7EF127EA - to_bits x)) in
  let w := fmul x v in
  let p := fadd c_8 (fmul w (fadd (fneg c_28) (fmul w (fadd c_56 (fmul w
           (fadd (fneg c_70) (fmul w (fadd c_56 (fmul w (fadd (fneg c_28) (fmul w
           (fsub c_8 w))))))))))))  in
  let v := fmul v p in
  fmul v sx.

(** hypot.rs 7-9. *)
Definition F32_hypot {E : Env} (x rhs : f32) : res f32 :=
  F32_sqrt (fadd (fmul x x) (fmul rhs rhs)).

(** mul_add.rs 7-9. *)
Definition F32_mul_add {E : Env} (x a b : f32) : f32 := fadd (fmul x a) b.

(** ** Trigonometry *)

(** cos.rs 226-233. *)
Definition F32_cos {E : Env} (self : f32) : f32 :=
  let x := fmul self (fdiv c_FRAC_1_PI c_2) in
  let x := fsub x (fadd c_0_25 (F32_floor (fadd x c_0_25))) in
  let x := fmul x (fmul c_16 (fsub (F32_abs x) c_0_5)) in
  let x := fadd x (fmul (fmul c_0_225 x) (fsub (F32_abs x) F32_ONE)) in
  x.

(** sin.rs 8-10. *)
Definition F32_sin {E : Env} (x : f32) : f32 := F32_cos (fsub x (fdiv c_PI c_2)).

(** sin_cos.rs 8-10. *)
Definition F32_sin_cos {E : Env} (x : f32) : f32 * f32 := (F32_sin x, F32_cos x).

(** tan.rs 7-9. *)
Definition F32_tan {E : Env} (x : f32) : f32 := fdiv (F32_sin x) (F32_cos x).

(** atan.rs 20-34. *)
Definition F32_atan_norm {E : Env} (x : f32) : f32 :=
  let ux_s := Z.land SIGN_MASK (to_bits x) in
  let bx_a := F32_abs (fmul c_B x) in
  let n := fadd bx_a (fmul x x) in
  let atan_1q := fdiv n (fadd (fadd F32_ONE bx_a) n) in
  from_bits (Z.lor ux_s (to_bits atan_1q)).

(** atan.rs 14-16. *)
Definition F32_atan {E : Env} (x : f32) : f32 := fmul c_FRAC_PI_2 (F32_atan_norm x).

(** atan2.rs 23-45. *)
Definition F32_atan2_norm {E : Env} (y x : f32) : f32 :=
  let ux_s := Z.land SIGN_MASK (to_bits x) in
  let uy_s := Z.land SIGN_MASK (to_bits y) in
  let q := f32_of_Z (Z.lor (Z.shiftr (Z.land (not32 ux_s) uy_s) 29) (Z.shiftr ux_s 30)) in
  let bxy_a := F32_abs (fmul (fmul c_B x) y) in
  let n := fadd bxy_a (fmul y y) in
  let atan_1q := fdiv n (fadd (fadd (fmul x x) bxy_a) n) in
  let uatan_2q := Z.lor (Z.lxor ux_s uy_s) (to_bits atan_1q) in
  fadd q (from_bits uatan_2q).

(** atan2.rs 16-19. *)
Definition F32_atan2 {E : Env} (y x : f32) : f32 :=
  let n := F32_atan2_norm y x in
  fmul (fdiv c_PI c_2) (if fgt n c_2 then fsub n c_4 else n).

(** asin.rs 10-12. *)
Definition F32_asin {E : Env} (x : f32) : res f32 :=
  i <- F32_invsqrt (fsub F32_ONE (fmul x x)) ;;
  Ok (F32_atan (fmul x i)).

(** acos.rs 11-19. *)
Definition F32_acos {E : Env} (x : f32) : res f32 :=
  if fgt x F32_ZERO then
    s <- F32_sqrt (fsub F32_ONE (fmul x x)) ;;
    Ok (F32_atan (fdiv s x))
  else if feq x F32_ZERO then Ok (fdiv c_PI c_2)
  else
    s <- F32_sqrt (fsub F32_ONE (fmul x x)) ;;
    Ok (fadd (F32_atan (fdiv s x)) c_PI).

(** ** Exponential and logarithms *)

(** exp.rs 63-71.  The loop runs i = iter, ..., 1. *)
Fixpoint exp_smallx_loop {E : Env} (x : f32) (i : nat) (total : f32) : f32 :=
  match i with
  | O => total
  | S j =>
      exp_smallx_loop x j
        (fadd F32_ONE (fmul (fdiv x (f32_of_Z (Z.of_nat i))) total))
  end.
Definition F32_exp_smallx {E : Env} (x : f32) (iter : nat) : f32 :=
  exp_smallx_loop x iter F32_ONE.

(** exp.rs 16-54. *)
Definition F32_exp_ln2_approx {E : Env} (x : f32) (partial_iter : nat) : res f32 :=
  if feq x F32_ZERO then Ok F32_ONE
  else if flt (F32_abs (fsub x F32_ONE)) F32_EPSILON then Ok c_E
  else if flt (F32_abs (fsub x (fneg F32_ONE))) F32_EPSILON then Ok (fdiv F32_ONE c_E)
  else
    let x_ln2recip := fmul x c_LOG2_E in
    x_fract <- F32_fract x_ln2recip ;;
    let x_trunc := F32_trunc x_ln2recip in
    let x_fract := fmul x_fract c_LN_2 in
    let fract_exp := F32_exp_smallx x_fract partial_iter in
    let fract_exponent :=
      clamp i32 (extract_exponent_value fract_exp + to_i32 x_trunc) in
    if fract_exponent <? - EXPONENT_BIAS then Ok F32_ZERO
    else if EXPONENT_BIAS + 1 <? fract_exponent then Ok F32_INFINITY
    else set_exponent fract_exp fract_exponent.

(** exp.rs 11-13. *)
Definition F32_exp {E : Env} (x : f32) : res f32 := F32_exp_ln2_approx x 4.

(** cosh.rs 11-15. *)
Definition F32_cosh {E : Env} (x : f32) : res f32 :=
  exp_x <- F32_exp x ;;
  exp_neg_x <- F32_exp (fneg x) ;;
  Ok (fdiv (fadd exp_x exp_neg_x) c_2).

(** ln.rs 39-43, the polynomial on 1..2. *)
Definition ln_1to2_polynomial {E : Env} (w : f32) : f32 :=
  fadd (fneg c_1_7417939)
    (fmul (fadd c_2_8212026
      (fmul (fadd (fneg c_1_4699568)
        (fmul (fsub c_0_44717955 (fmul c_0_056570851 w)) w)) w)) w).

(** ln.rs 16-53. *)
Definition F32_ln {E : Env} (x : f32) : f32 :=
  if flt (F32_abs (fsub x F32_ONE)) F32_EPSILON then F32_ZERO
  else
    let x_less_than_1 := flt x F32_ONE in
    let x_working := if x_less_than_1 then F32_inv x else x in
    let base2_exponent := as_u32 (extract_exponent_value x_working) in
    let divisor := from_bits (Z.land (to_bits x_working) EXPONENT_MASK) in
    let x_working := fdiv x_working divisor in
    let result :=
      fadd (fmul (f32_of_Z base2_exponent) c_LN_2) (ln_1to2_polynomial x_working) in
    if x_less_than_1 then fneg result else result.

(** log.rs 7-9, log2.rs 8-10, log10.rs 8-10. *)
Definition F32_log {E : Env} (x base : f32) : f32 :=
  fmul (fdiv F32_ONE (F32_ln base)) (F32_ln x).
Definition F32_log2 {E : Env} (x : f32) : f32 := fmul (F32_ln x) c_LOG2_E.
Definition F32_log10 {E : Env} (x : f32) : f32 := fmul (F32_ln x) c_LOG10_E.

(** ** Powers *)

(** powf.rs 7-20. *)
Definition F32_powf {E : Env} (x n : f32) : res f32 :=
  if fge x F32_ZERO then F32_exp (fmul n (F32_ln x))
  else if negb (is_integer n) then Ok f32_NAN
  else if is_even n then F32_exp (fmul n (F32_ln (without_sign x)))
  else r <- F32_exp (fmul n (F32_ln (without_sign x))) ;; Ok (fneg r).

(** powi.rs 55-67, with an iteration budget. *)
Fixpoint powi_loop {E : Env} (fuel : nat) (abs_n : Z) (base result : f32) : res f32 :=
  match fuel with
  | O => NoFuel
  | S fuel =>
      let result := if Z.land abs_n 1 =? 1 then fmul result base else result in
      let abs_n := Z.shiftr abs_n 1 in
      if abs_n =? 0 then Ok result
      else powi_loop fuel abs_n (fmul base base) result
  end.

(** powi.rs 33-53: [Some r] when the function returns early. *)
Definition powi_early {E : Env} (x : f32) (n : Z) : res (option f32) :=
  if fle c_0_5 (F32_abs x) && flt (F32_abs x) c_2 then Ok None
  else
    approx_final_exponent <- arith i32 (extract_exponent_value x * n) ;;
    if (127 <? approx_final_exponent)
       || (feq x F32_ZERO && (approx_final_exponent <? 0)) then
      if negb (sign_bit x) || (Z.land n 1 =? 0)
      then Ok (Some F32_INFINITY) else Ok (Some F32_NEG_INFINITY)
    else if approx_final_exponent <? -126 - MANTISSA_BITS then Ok (Some F32_ZERO)
    else Ok None.

(** powi.rs 13-68. *)
Definition F32_powi {E : Env} (fuel : nat) (x : f32) (n : Z) : res f32 :=
  abs_n <- arith i32 (Z.abs n) ;;
  let base := if n <? 0 then fdiv F32_ONE x else x in
  if n =? 0 then Ok F32_ONE
  else if feq x F32_ZERO && (0 <? n) then Ok x
  else
    early <- powi_early x n ;;
    match early with
    | Some r => Ok r
    | None => powi_loop fuel abs_n base F32_ONE
    end.
