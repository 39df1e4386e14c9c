(** * Property C132: the model is the meaning of the source text *)

From Coq Require Import ZArith Bool List String.
From Flocq Require Import Core IEEE754.Binary IEEE754.Bits.
From Verif Require Import Base Float RustSyntax RustSem SrcText Source TestEnv P_SourceAll.
Import ListNotations.
Open Scope Z_scope.

(** ** C132 *)

(** Every function of src/float/*.rs, run from its text, is its model (Float.v); powi with a loop of at most lf rounds. *)
Theorem C132_functions : forall {E : Env} lf x y z n,
  src_run lf "F32::abs" [VW x] = Ok (VW (F32_abs x)) /\
  src_run lf "F32::copysign" [VW x; VW y] = Ok (VW (F32_copysign x y)) /\
  src_run lf "F32::signum" [VW x] = Ok (VW (F32_signum x)) /\
  src_run lf "F32::trunc" [VW x] = Ok (VW (F32_trunc x)) /\
  src_run lf "F32::fract" [VW x] = (r <- F32_fract x ;; Ok (VW r)) /\
  src_run lf "F32::floor" [VW x] = Ok (VW (F32_floor x)) /\
  src_run lf "F32::ceil" [VW x] = Ok (VW (F32_ceil x)) /\
  src_run lf "F32::round" [VW x] = Ok (VW (F32_round x)) /\
  src_run lf "F32::rem_euclid" [VW x; VW y] = Ok (VW (F32_rem_euclid x y)) /\
  src_run lf "F32::div_euclid" [VW x; VW y] = Ok (VW (F32_div_euclid x y)) /\
  src_run lf "F32::sqrt" [VW x] = (r <- F32_sqrt x ;; Ok (VW r)) /\
  src_run lf "F32::invsqrt" [VW x] = (r <- F32_invsqrt x ;; Ok (VW r)) /\
  src_run lf "F32::inv" [VW x] = Ok (VW (F32_inv x)) /\
  src_run lf "F32::recip" [VW x] = Ok (VW (F32_recip x)) /\
  src_run lf "F32::hypot" [VW x; VW y] = (r <- F32_hypot x y ;; Ok (VW r)) /\
  src_run lf "F32::mul_add" [VW x; VW y; VW z] = Ok (VW (F32_mul_add x y z)) /\
  src_run lf "F32::cos" [VW x] = Ok (VW (F32_cos x)) /\
  src_run lf "F32::sin" [VW x] = Ok (VW (F32_sin x)) /\
  src_run lf "F32::sin_cos" [VW x] = Ok (VT [VW (fst (F32_sin_cos x)); VW (snd (F32_sin_cos x))]) /\
  src_run lf "F32::tan" [VW x] = Ok (VW (F32_tan x)) /\
  src_run lf "F32::atan_norm" [VW x] = Ok (VW (F32_atan_norm x)) /\
  src_run lf "F32::atan" [VW x] = Ok (VW (F32_atan x)) /\
  src_run lf "F32::atan2_norm" [VW y; VW x] = Ok (VW (F32_atan2_norm y x)) /\
  src_run lf "F32::atan2" [VW y; VW x] = Ok (VW (F32_atan2 y x)) /\
  src_run lf "F32::asin" [VW x] = (r <- F32_asin x ;; Ok (VW r)) /\
  src_run lf "F32::acos" [VW x] = (r <- F32_acos x ;; Ok (VW r)) /\
  src_run lf "F32::exp_smallx" [VW x; VI U32 n] = Ok (VW (F32_exp_smallx x (Z.to_nat n))) /\
  src_run lf "F32::exp_ln2_approx" [VW x; VI U32 n] = (r <- F32_exp_ln2_approx x (Z.to_nat n) ;; Ok (VW r)) /\
  src_run lf "F32::exp" [VW x] = (r <- F32_exp x ;; Ok (VW r)) /\
  src_run lf "F32::cosh" [VW x] = (r <- F32_cosh x ;; Ok (VW r)) /\
  src_run lf "F32::ln" [VW x] = Ok (VW (F32_ln x)) /\
  src_run lf "F32::log" [VW x; VW y] = Ok (VW (F32_log x y)) /\
  src_run lf "F32::log2" [VW x] = Ok (VW (F32_log2 x)) /\
  src_run lf "F32::log10" [VW x] = Ok (VW (F32_log10 x)) /\
  src_run lf "F32::powf" [VW x; VW y] = (r <- F32_powf x y ;; Ok (VW r)) /\
  src_run lf "F32::powi" [VW x; VI I32 n] = (r <- F32_powi lf x n ;; Ok (VW r)).
Proof. exact @source_functions. Qed.
Print Assumptions C132_functions.

(** The constants and helper functions of src/float.rs. *)
Theorem C132_helpers : forall {E : Env} lf x n,
  src_run lf "SIGN_MASK" [] = Ok (VI U32 SIGN_MASK) /\
  src_run lf "EXPONENT_MASK" [] = Ok (VI U32 EXPONENT_MASK) /\
  src_run lf "MANTISSA_MASK" [] = Ok (VI U32 MANTISSA_MASK) /\
  src_run lf "EXPONENT_BIAS" [] = Ok (VI U32 EXPONENT_BIAS) /\
  src_run lf "MANTISSA_BITS" [] = Ok (VI U32 MANTISSA_BITS) /\
  src_run lf "F32::ZERO" [] = Ok (VW F32_ZERO) /\
  src_run lf "F32::ONE" [] = Ok (VW F32_ONE) /\
  src_run lf "F32::EPSILON" [] = Ok (VW F32_EPSILON) /\
  src_run lf "F32::NAN" [] = Ok (VW f32_NAN) /\
  src_run lf "F32::INFINITY" [] = Ok (VW F32_INFINITY) /\
  src_run lf "F32::NEG_INFINITY" [] = Ok (VW F32_NEG_INFINITY) /\
  src_run lf "F32::is_nan" [VW x] = Ok (VB (is_nan x)) /\
  src_run lf "F32::is_infinite" [VW x] = Ok (VB (is_infinite x)) /\
  src_run lf "F32::is_finite" [VW x] = Ok (VB (is_finite x)) /\
  src_run lf "F32::is_sign_positive" [VW x] = Ok (VB (negb (sign_bit x))) /\
  src_run lf "F32::is_sign_negative" [VW x] = Ok (VB (sign_bit x)) /\
  src_run lf "F32::to_bits" [VW x] = Ok (VI U32 (to_bits x)) /\
  src_run lf "F32::from_bits" [VI U32 n] = Ok (VW (from_bits n)) /\
  src_run lf "F32::extract_exponent_bits" [VW x] = Ok (VI U32 (extract_exponent_bits x)) /\
  src_run lf "F32::extract_exponent_value" [VW x] = Ok (VI I32 (extract_exponent_value x)) /\
  src_run lf "F32::without_sign" [VW x] = Ok (VW (without_sign x)) /\
  src_run lf "F32::set_exponent" [VW x; VI I32 n] = (r <- set_exponent x n ;; Ok (VW r)) /\
  src_run lf "F32::is_integer" [VW x] = Ok (VB (is_integer x)) /\
  src_run lf "F32::is_even" [VW x] = Ok (VB (is_even x)).
Proof. exact @source_helpers. Qed.
Print Assumptions C132_helpers.

(** The operators and conversions of F32, whatever functions may be called. *)
Theorem C132_operators : forall {E : Env} lf call k x y n,
  run_item lf call (get "AddforF32::add") [VW x; VW y] k = k (VW (fadd x y)) /\
  run_item lf call (get "Add<f32>forF32::add") [VW x; VF y] k = k (VW (fadd x y)) /\
  run_item lf call (get "Add<F32>forf32::add") [VF x; VW y] k = k (VW (fadd x y)) /\
  run_item lf call (get "AddAssignforF32::add_assign") [VW x; VW y] k = k (VW (fadd x y)) /\
  run_item lf call (get "AddAssign<f32>forF32::add_assign") [VW x; VF y] k = k (VW (fadd x y)) /\
  run_item lf call (get "AddAssign<F32>forf32::add_assign") [VF x; VW y] k = k (VF (fadd x y)) /\
  run_item lf call (get "SubforF32::sub") [VW x; VW y] k = k (VW (fsub x y)) /\
  run_item lf call (get "Sub<f32>forF32::sub") [VW x; VF y] k = k (VW (fsub x y)) /\
  run_item lf call (get "Sub<F32>forf32::sub") [VF x; VW y] k = k (VW (fsub x y)) /\
  run_item lf call (get "SubAssignforF32::sub_assign") [VW x; VW y] k = k (VW (fsub x y)) /\
  run_item lf call (get "SubAssign<f32>forF32::sub_assign") [VW x; VF y] k = k (VW (fsub x y)) /\
  run_item lf call (get "SubAssign<F32>forf32::sub_assign") [VF x; VW y] k = k (VF (fsub x y)) /\
  run_item lf call (get "MulforF32::mul") [VW x; VW y] k = k (VW (fmul x y)) /\
  run_item lf call (get "Mul<f32>forF32::mul") [VW x; VF y] k = k (VW (fmul x y)) /\
  run_item lf call (get "Mul<F32>forf32::mul") [VF x; VW y] k = k (VW (fmul x y)) /\
  run_item lf call (get "MulAssignforF32::mul_assign") [VW x; VW y] k = k (VW (fmul x y)) /\
  run_item lf call (get "MulAssign<f32>forF32::mul_assign") [VW x; VF y] k = k (VW (fmul x y)) /\
  run_item lf call (get "MulAssign<F32>forf32::mul_assign") [VF x; VW y] k = k (VF (fmul x y)) /\
  run_item lf call (get "DivforF32::div") [VW x; VW y] k = k (VW (fdiv x y)) /\
  run_item lf call (get "Div<f32>forF32::div") [VW x; VF y] k = k (VW (fdiv x y)) /\
  run_item lf call (get "Div<F32>forf32::div") [VF x; VW y] k = k (VW (fdiv x y)) /\
  run_item lf call (get "DivAssignforF32::div_assign") [VW x; VW y] k = k (VW (fdiv x y)) /\
  run_item lf call (get "DivAssign<f32>forF32::div_assign") [VW x; VF y] k = k (VW (fdiv x y)) /\
  run_item lf call (get "DivAssign<F32>forf32::div_assign") [VF x; VW y] k = k (VF (fdiv x y)) /\
  run_item lf call (get "RemforF32::rem") [VW x; VW y] k = k (VW (frem x y)) /\
  run_item lf call (get "Rem<f32>forF32::rem") [VW x; VF y] k = k (VW (frem x y)) /\
  run_item lf call (get "Rem<F32>forf32::rem") [VF x; VW y] k = k (VW (frem x y)) /\
  run_item lf call (get "RemAssignforF32::rem_assign") [VW x; VW y] k = k (VW (frem x y)) /\
  run_item lf call (get "RemAssign<f32>forF32::rem_assign") [VW x; VF y] k = k (VW (frem x y)) /\
  run_item lf call (get "NegforF32::neg") [VW x] k = k (VW (fneg x)) /\
  run_item lf call (get "PartialEq<f32>forF32::eq") [VW x; VF y] k = k (VB (feq x y)) /\
  run_item lf call (get "PartialEq<F32>forf32::eq") [VF x; VW y] k = k (VB (feq x y)) /\
  run_item lf call (get "PartialOrd<f32>forF32::partial_cmp") [VW x; VF y] k = k (VC (Bcompare 24 128 x y)) /\
  run_item lf call (get "PartialOrd<F32>forf32::partial_cmp") [VF x; VW y] k = k (VC (Bcompare 24 128 x y)) /\
  run_item lf call (get "From<f32>forF32::from") [VF x] k = k (VW x) /\
  run_item lf call (get "From<F32>forf32::from") [VW x] k = k (VF x) /\
  run_item lf call (get "From<i8>forF32::from") [VI I8 n] k = k (VW (F32_from_int n)) /\
  run_item lf call (get "From<i16>forF32::from") [VI I16 n] k = k (VW (F32_from_int n)) /\
  run_item lf call (get "From<u8>forF32::from") [VI U8 n] k = k (VW (F32_from_int n)) /\
  run_item lf call (get "From<u16>forF32::from") [VI U16 n] k = k (VW (F32_from_int n)).
Proof. exact @source_operators. Qed.
Print Assumptions C132_operators.

(** The impls of num-traits. *)
Theorem C132_num_traits : forall {E : Env} lf k x,
  run_item lf (link lf linked) (get "ZeroforF32::zero") [] k = k (VW F32_ZERO) /\
  run_item lf (link lf linked) (get "ZeroforF32::is_zero") [VW x] k = k (VB (feq F32_ZERO x)) /\
  run_item lf (link lf linked) (get "OneforF32::one") [] k = k (VW F32_ONE) /\
  run_item lf (link lf linked) (get "OneforF32::is_one") [VW x] k = k (VB (feq F32_ONE x)) /\
  run_item lf (link lf linked) (get "InvforF32::inv") [VW x] k = k (VW (F32_inv x)).
Proof. exact @source_num_traits. Qed.
Print Assumptions C132_num_traits.

(** The same for any name and any arguments: what is not in the table, or has arguments of other types, is stuck on both sides. *)
Theorem C132_any_call : forall {E : Env} lf f args, src_run lf f args = by_table (model_sem lf) f args Ok.
Proof. exact @source_all. Qed.
Print Assumptions C132_any_call.

(** Every file is read, and no function of src/float/*.rs is left out. *)
Theorem C132_covered : 
  parse_files sources = Some program /\
  exists l, parse_files (tl sources) = Some l /\ List.length l = 36%nat /\
    forall i, In i l -> In (key i) order /\ i_body i <> None.
Proof. exact @source_covered. Qed.
Print Assumptions C132_covered.

(** Running the text: 3^2.5, 3^-5, and [sqrt] with the constant of the text changed
    in its last digit. *)
Definition C132_bits (r : res V) : Z := match r with Ok (VW x) => to_bits x | _ => -1 end.
Definition C132_wrong : string :=
  "impl F32 { pub fn sqrt(self) -> Self { if self >= Self::ZERO {
     Self::from_bits((self.to_bits() + 0x3f80_0008) >> 1) } else { Self::NAN } } }".
Example C132_case :
  C132_bits (@src_run env_debug 40 "F32::powf" [VW (from_bits 0x40400000); VW (from_bits 0x40200000)]) = 1098465060 /\
  C132_bits (@src_run env_debug 40 "F32::powi" [VW (from_bits 0x40400000); VI I32 (-5)]) = 998693127 /\
  C132_bits (@src_run env_debug 40 "F32::sqrt" [VW (from_bits 0x40400000)]) = 1071644672 /\
  C132_bits (@link env_debug 40 (or_else [] (parse_file C132_wrong) ++ linked) "F32::sqrt"
    [VW (from_bits 0x40400000)] Ok) = 1071644676.
Proof. vm_compute. repeat split; reflexivity. Qed.
