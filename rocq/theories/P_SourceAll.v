(** * The source text: statements for single functions, the operators, coverage *)

From Coq Require Import ZArith Bool List String.
From Flocq Require Import Core IEEE754.Binary.
From Verif Require Import Base Float RustSyntax RustSem SrcText Source P_Source.
Import ListNotations.
Open Scope Z_scope.

Lemma get_nf_eq : forall f, get f = get_nf f.
Proof. intros f. unfold get, get_nf. rewrite program_nf. reflexivity. Qed.

(** *** C132 *)
Lemma source_all : forall {E : Env} lf f args, src_run lf f args = by_table (model_sem lf) f args Ok.
Proof. intros E lf f args. unfold src_run. rewrite link_all. reflexivity. Qed.

(** The constants and helper functions of src/float.rs. *)
Lemma source_helpers : forall {E : Env} lf x n,
  src_run lf "SIGN_MASK" [] = Ok (VI U32 SIGN_MASK) /\
  src_run lf "EXPONENT_MASK" [] = Ok (VI U32 EXPONENT_MASK) /\
  src_run lf "MANTISSA_MASK" [] = Ok (VI U32 MANTISSA_MASK) /\
  src_run lf "EXPONENT_BIAS" [] = Ok (VI U32 EXPONENT_BIAS) /\
  src_run lf "MANTISSA_BITS" [] = Ok (VI U32 MANTISSA_BITS) /\
  src_run lf "F32::ZERO" [] = Ok (VW F32_ZERO) /\
  src_run lf "F32::ONE" [] = Ok (VW F32_ONE) /\
  src_run lf "F32::EPSILON" [] = Ok (VW F32_EPSILON) /\
  src_run lf "F32::NAN" [] = Ok (VW f32_NAN) /\
  src_run lf "F32::INFINITY" [] = Ok (VW F32_INFINITY) /\
  src_run lf "F32::NEG_INFINITY" [] = Ok (VW F32_NEG_INFINITY) /\
  src_run lf "F32::is_nan" [VW x] = Ok (VB (is_nan x)) /\
  src_run lf "F32::is_infinite" [VW x] = Ok (VB (is_infinite x)) /\
  src_run lf "F32::is_finite" [VW x] = Ok (VB (is_finite x)) /\
  src_run lf "F32::is_sign_positive" [VW x] = Ok (VB (negb (sign_bit x))) /\
  src_run lf "F32::is_sign_negative" [VW x] = Ok (VB (sign_bit x)) /\
  src_run lf "F32::to_bits" [VW x] = Ok (VI U32 (to_bits x)) /\
  src_run lf "F32::from_bits" [VI U32 n] = Ok (VW (from_bits n)) /\
  src_run lf "F32::extract_exponent_bits" [VW x] = Ok (VI U32 (extract_exponent_bits x)) /\
  src_run lf "F32::extract_exponent_value" [VW x] = Ok (VI I32 (extract_exponent_value x)) /\
  src_run lf "F32::without_sign" [VW x] = Ok (VW (without_sign x)) /\
  src_run lf "F32::set_exponent" [VW x; VI I32 n] = (r <- set_exponent x n ;; Ok (VW r)) /\
  src_run lf "F32::is_integer" [VW x] = Ok (VB (is_integer x)) /\
  src_run lf "F32::is_even" [VW x] = Ok (VB (is_even x)).
Proof. intros E lf x n. unfold src_run. rewrite link_all. repeat apply conj; reflexivity. Qed.

(** The functions of src/float/*.rs. *)
Lemma source_functions : forall {E : Env} lf x y z n,
  src_run lf "F32::abs" [VW x] = Ok (VW (F32_abs x)) /\
  src_run lf "F32::copysign" [VW x; VW y] = Ok (VW (F32_copysign x y)) /\
  src_run lf "F32::signum" [VW x] = Ok (VW (F32_signum x)) /\
  src_run lf "F32::trunc" [VW x] = Ok (VW (F32_trunc x)) /\
  src_run lf "F32::fract" [VW x] = (r <- F32_fract x ;; Ok (VW r)) /\
  src_run lf "F32::floor" [VW x] = Ok (VW (F32_floor x)) /\
  src_run lf "F32::ceil" [VW x] = Ok (VW (F32_ceil x)) /\
  src_run lf "F32::round" [VW x] = Ok (VW (F32_round x)) /\
  src_run lf "F32::rem_euclid" [VW x; VW y] = Ok (VW (F32_rem_euclid x y)) /\
  src_run lf "F32::div_euclid" [VW x; VW y] = Ok (VW (F32_div_euclid x y)) /\
  src_run lf "F32::sqrt" [VW x] = (r <- F32_sqrt x ;; Ok (VW r)) /\
  src_run lf "F32::invsqrt" [VW x] = (r <- F32_invsqrt x ;; Ok (VW r)) /\
  src_run lf "F32::inv" [VW x] = Ok (VW (F32_inv x)) /\
  src_run lf "F32::recip" [VW x] = Ok (VW (F32_recip x)) /\
  src_run lf "F32::hypot" [VW x; VW y] = (r <- F32_hypot x y ;; Ok (VW r)) /\
  src_run lf "F32::mul_add" [VW x; VW y; VW z] = Ok (VW (F32_mul_add x y z)) /\
  src_run lf "F32::cos" [VW x] = Ok (VW (F32_cos x)) /\
  src_run lf "F32::sin" [VW x] = Ok (VW (F32_sin x)) /\
  src_run lf "F32::sin_cos" [VW x] = Ok (VT [VW (fst (F32_sin_cos x)); VW (snd (F32_sin_cos x))]) /\
  src_run lf "F32::tan" [VW x] = Ok (VW (F32_tan x)) /\
  src_run lf "F32::atan_norm" [VW x] = Ok (VW (F32_atan_norm x)) /\
  src_run lf "F32::atan" [VW x] = Ok (VW (F32_atan x)) /\
  src_run lf "F32::atan2_norm" [VW y; VW x] = Ok (VW (F32_atan2_norm y x)) /\
  src_run lf "F32::atan2" [VW y; VW x] = Ok (VW (F32_atan2 y x)) /\
  src_run lf "F32::asin" [VW x] = (r <- F32_asin x ;; Ok (VW r)) /\
  src_run lf "F32::acos" [VW x] = (r <- F32_acos x ;; Ok (VW r)) /\
  src_run lf "F32::exp_smallx" [VW x; VI U32 n] = Ok (VW (F32_exp_smallx x (Z.to_nat n))) /\
  src_run lf "F32::exp_ln2_approx" [VW x; VI U32 n] = (r <- F32_exp_ln2_approx x (Z.to_nat n) ;; Ok (VW r)) /\
  src_run lf "F32::exp" [VW x] = (r <- F32_exp x ;; Ok (VW r)) /\
  src_run lf "F32::cosh" [VW x] = (r <- F32_cosh x ;; Ok (VW r)) /\
  src_run lf "F32::ln" [VW x] = Ok (VW (F32_ln x)) /\
  src_run lf "F32::log" [VW x; VW y] = Ok (VW (F32_log x y)) /\
  src_run lf "F32::log2" [VW x] = Ok (VW (F32_log2 x)) /\
  src_run lf "F32::log10" [VW x] = Ok (VW (F32_log10 x)) /\
  src_run lf "F32::powf" [VW x; VW y] = (r <- F32_powf x y ;; Ok (VW r)) /\
  src_run lf "F32::powi" [VW x; VI I32 n] = (r <- F32_powi lf x n ;; Ok (VW r)).
Proof. intros E lf x y z n. unfold src_run. rewrite link_all. repeat apply conj; reflexivity. Qed.

(** The other items of src/float.rs, read. *)
Definition o_0 : item := Eval vm_compute in get_nf "AddforF32::add".
Lemma g_0 : get "AddforF32::add" = o_0.
Proof. rewrite get_nf_eq. vm_compute. reflexivity. Qed.
Definition o_1 : item := Eval vm_compute in get_nf "Add<f32>forF32::add".
Lemma g_1 : get "Add<f32>forF32::add" = o_1.
Proof. rewrite get_nf_eq. vm_compute. reflexivity. Qed.
Definition o_2 : item := Eval vm_compute in get_nf "Add<F32>forf32::add".
Lemma g_2 : get "Add<F32>forf32::add" = o_2.
Proof. rewrite get_nf_eq. vm_compute. reflexivity. Qed.
Definition o_3 : item := Eval vm_compute in get_nf "AddAssignforF32::add_assign".
Lemma g_3 : get "AddAssignforF32::add_assign" = o_3.
Proof. rewrite get_nf_eq. vm_compute. reflexivity. Qed.
Definition o_4 : item := Eval vm_compute in get_nf "AddAssign<f32>forF32::add_assign".
Lemma g_4 : get "AddAssign<f32>forF32::add_assign" = o_4.
Proof. rewrite get_nf_eq. vm_compute. reflexivity. Qed.
Definition o_5 : item := Eval vm_compute in get_nf "AddAssign<F32>forf32::add_assign".
Lemma g_5 : get "AddAssign<F32>forf32::add_assign" = o_5.
Proof. rewrite get_nf_eq. vm_compute. reflexivity. Qed.
Definition o_6 : item := Eval vm_compute in get_nf "SubforF32::sub".
Lemma g_6 : get "SubforF32::sub" = o_6.
Proof. rewrite get_nf_eq. vm_compute. reflexivity. Qed.
Definition o_7 : item := Eval vm_compute in get_nf "Sub<f32>forF32::sub".
Lemma g_7 : get "Sub<f32>forF32::sub" = o_7.
Proof. rewrite get_nf_eq. vm_compute. reflexivity. Qed.
Definition o_8 : item := Eval vm_compute in get_nf "Sub<F32>forf32::sub".
Lemma g_8 : get "Sub<F32>forf32::sub" = o_8.
Proof. rewrite get_nf_eq. vm_compute. reflexivity. Qed.
Definition o_9 : item := Eval vm_compute in get_nf "SubAssignforF32::sub_assign".
Lemma g_9 : get "SubAssignforF32::sub_assign" = o_9.
Proof. rewrite get_nf_eq. vm_compute. reflexivity. Qed.
Definition o_10 : item := Eval vm_compute in get_nf "SubAssign<f32>forF32::sub_assign".
Lemma g_10 : get "SubAssign<f32>forF32::sub_assign" = o_10.
Proof. rewrite get_nf_eq. vm_compute. reflexivity. Qed.
Definition o_11 : item := Eval vm_compute in get_nf "SubAssign<F32>forf32::sub_assign".
Lemma g_11 : get "SubAssign<F32>forf32::sub_assign" = o_11.
Proof. rewrite get_nf_eq. vm_compute. reflexivity. Qed.
Definition o_12 : item := Eval vm_compute in get_nf "MulforF32::mul".
Lemma g_12 : get "MulforF32::mul" = o_12.
Proof. rewrite get_nf_eq. vm_compute. reflexivity. Qed.
Definition o_13 : item := Eval vm_compute in get_nf "Mul<f32>forF32::mul".
Lemma g_13 : get "Mul<f32>forF32::mul" = o_13.
Proof. rewrite get_nf_eq. vm_compute. reflexivity. Qed.
Definition o_14 : item := Eval vm_compute in get_nf "Mul<F32>forf32::mul".
Lemma g_14 : get "Mul<F32>forf32::mul" = o_14.
Proof. rewrite get_nf_eq. vm_compute. reflexivity. Qed.
Definition o_15 : item := Eval vm_compute in get_nf "MulAssignforF32::mul_assign".
Lemma g_15 : get "MulAssignforF32::mul_assign" = o_15.
Proof. rewrite get_nf_eq. vm_compute. reflexivity. Qed.
Definition o_16 : item := Eval vm_compute in get_nf "MulAssign<f32>forF32::mul_assign".
Lemma g_16 : get "MulAssign<f32>forF32::mul_assign" = o_16.
Proof. rewrite get_nf_eq. vm_compute. reflexivity. Qed.
Definition o_17 : item := Eval vm_compute in get_nf "MulAssign<F32>forf32::mul_assign".
Lemma g_17 : get "MulAssign<F32>forf32::mul_assign" = o_17.
Proof. rewrite get_nf_eq. vm_compute. reflexivity. Qed.
Definition o_18 : item := Eval vm_compute in get_nf "DivforF32::div".
Lemma g_18 : get "DivforF32::div" = o_18.
Proof. rewrite get_nf_eq. vm_compute. reflexivity. Qed.
Definition o_19 : item := Eval vm_compute in get_nf "Div<f32>forF32::div".
Lemma g_19 : get "Div<f32>forF32::div" = o_19.
Proof. rewrite get_nf_eq. vm_compute. reflexivity. Qed.
Definition o_20 : item := Eval vm_compute in get_nf "Div<F32>forf32::div".
Lemma g_20 : get "Div<F32>forf32::div" = o_20.
Proof. rewrite get_nf_eq. vm_compute. reflexivity. Qed.
Definition o_21 : item := Eval vm_compute in get_nf "DivAssignforF32::div_assign".
Lemma g_21 : get "DivAssignforF32::div_assign" = o_21.
Proof. rewrite get_nf_eq. vm_compute. reflexivity. Qed.
Definition o_22 : item := Eval vm_compute in get_nf "DivAssign<f32>forF32::div_assign".
Lemma g_22 : get "DivAssign<f32>forF32::div_assign" = o_22.
Proof. rewrite get_nf_eq. vm_compute. reflexivity. Qed.
Definition o_23 : item := Eval vm_compute in get_nf "DivAssign<F32>forf32::div_assign".
Lemma g_23 : get "DivAssign<F32>forf32::div_assign" = o_23.
Proof. rewrite get_nf_eq. vm_compute. reflexivity. Qed.
Definition o_24 : item := Eval vm_compute in get_nf "RemforF32::rem".
Lemma g_24 : get "RemforF32::rem" = o_24.
Proof. rewrite get_nf_eq. vm_compute. reflexivity. Qed.
Definition o_25 : item := Eval vm_compute in get_nf "Rem<f32>forF32::rem".
Lemma g_25 : get "Rem<f32>forF32::rem" = o_25.
Proof. rewrite get_nf_eq. vm_compute. reflexivity. Qed.
Definition o_26 : item := Eval vm_compute in get_nf "Rem<F32>forf32::rem".
Lemma g_26 : get "Rem<F32>forf32::rem" = o_26.
Proof. rewrite get_nf_eq. vm_compute. reflexivity. Qed.
Definition o_27 : item := Eval vm_compute in get_nf "RemAssignforF32::rem_assign".
Lemma g_27 : get "RemAssignforF32::rem_assign" = o_27.
Proof. rewrite get_nf_eq. vm_compute. reflexivity. Qed.
Definition o_28 : item := Eval vm_compute in get_nf "RemAssign<f32>forF32::rem_assign".
Lemma g_28 : get "RemAssign<f32>forF32::rem_assign" = o_28.
Proof. rewrite get_nf_eq. vm_compute. reflexivity. Qed.
Definition o_29 : item := Eval vm_compute in get_nf "NegforF32::neg".
Lemma g_29 : get "NegforF32::neg" = o_29.
Proof. rewrite get_nf_eq. vm_compute. reflexivity. Qed.
Definition o_30 : item := Eval vm_compute in get_nf "PartialEq<f32>forF32::eq".
Lemma g_30 : get "PartialEq<f32>forF32::eq" = o_30.
Proof. rewrite get_nf_eq. vm_compute. reflexivity. Qed.
Definition o_31 : item := Eval vm_compute in get_nf "PartialEq<F32>forf32::eq".
Lemma g_31 : get "PartialEq<F32>forf32::eq" = o_31.
Proof. rewrite get_nf_eq. vm_compute. reflexivity. Qed.
Definition o_32 : item := Eval vm_compute in get_nf "PartialOrd<f32>forF32::partial_cmp".
Lemma g_32 : get "PartialOrd<f32>forF32::partial_cmp" = o_32.
Proof. rewrite get_nf_eq. vm_compute. reflexivity. Qed.
Definition o_33 : item := Eval vm_compute in get_nf "PartialOrd<F32>forf32::partial_cmp".
Lemma g_33 : get "PartialOrd<F32>forf32::partial_cmp" = o_33.
Proof. rewrite get_nf_eq. vm_compute. reflexivity. Qed.
Definition o_34 : item := Eval vm_compute in get_nf "From<f32>forF32::from".
Lemma g_34 : get "From<f32>forF32::from" = o_34.
Proof. rewrite get_nf_eq. vm_compute. reflexivity. Qed.
Definition o_35 : item := Eval vm_compute in get_nf "From<F32>forf32::from".
Lemma g_35 : get "From<F32>forf32::from" = o_35.
Proof. rewrite get_nf_eq. vm_compute. reflexivity. Qed.
Definition o_36 : item := Eval vm_compute in get_nf "From<i8>forF32::from".
Lemma g_36 : get "From<i8>forF32::from" = o_36.
Proof. rewrite get_nf_eq. vm_compute. reflexivity. Qed.
Definition o_37 : item := Eval vm_compute in get_nf "From<i16>forF32::from".
Lemma g_37 : get "From<i16>forF32::from" = o_37.
Proof. rewrite get_nf_eq. vm_compute. reflexivity. Qed.
Definition o_38 : item := Eval vm_compute in get_nf "From<u8>forF32::from".
Lemma g_38 : get "From<u8>forF32::from" = o_38.
Proof. rewrite get_nf_eq. vm_compute. reflexivity. Qed.
Definition o_39 : item := Eval vm_compute in get_nf "From<u16>forF32::from".
Lemma g_39 : get "From<u16>forF32::from" = o_39.
Proof. rewrite get_nf_eq. vm_compute. reflexivity. Qed.
Definition o_40 : item := Eval vm_compute in get_nf "ZeroforF32::zero".
Lemma g_40 : get "ZeroforF32::zero" = o_40.
Proof. rewrite get_nf_eq. vm_compute. reflexivity. Qed.
Definition o_41 : item := Eval vm_compute in get_nf "ZeroforF32::is_zero".
Lemma g_41 : get "ZeroforF32::is_zero" = o_41.
Proof. rewrite get_nf_eq. vm_compute. reflexivity. Qed.
Definition o_42 : item := Eval vm_compute in get_nf "OneforF32::one".
Lemma g_42 : get "OneforF32::one" = o_42.
Proof. rewrite get_nf_eq. vm_compute. reflexivity. Qed.
Definition o_43 : item := Eval vm_compute in get_nf "OneforF32::is_one".
Lemma g_43 : get "OneforF32::is_one" = o_43.
Proof. rewrite get_nf_eq. vm_compute. reflexivity. Qed.
Definition o_44 : item := Eval vm_compute in get_nf "InvforF32::inv".
Lemma g_44 : get "InvforF32::inv" = o_44.
Proof. rewrite get_nf_eq. vm_compute. reflexivity. Qed.

(** The operators and conversions of src/float.rs: they act on the f32 inside, as
    the interpreter takes for granted when a function uses one. *)
Lemma source_operators : forall {E : Env} lf call k x y n,
  run_item lf call (get "AddforF32::add") [VW x; VW y] k = k (VW (fadd x y)) /\
  run_item lf call (get "Add<f32>forF32::add") [VW x; VF y] k = k (VW (fadd x y)) /\
  run_item lf call (get "Add<F32>forf32::add") [VF x; VW y] k = k (VW (fadd x y)) /\
  run_item lf call (get "AddAssignforF32::add_assign") [VW x; VW y] k = k (VW (fadd x y)) /\
  run_item lf call (get "AddAssign<f32>forF32::add_assign") [VW x; VF y] k = k (VW (fadd x y)) /\
  run_item lf call (get "AddAssign<F32>forf32::add_assign") [VF x; VW y] k = k (VF (fadd x y)) /\
  run_item lf call (get "SubforF32::sub") [VW x; VW y] k = k (VW (fsub x y)) /\
  run_item lf call (get "Sub<f32>forF32::sub") [VW x; VF y] k = k (VW (fsub x y)) /\
  run_item lf call (get "Sub<F32>forf32::sub") [VF x; VW y] k = k (VW (fsub x y)) /\
  run_item lf call (get "SubAssignforF32::sub_assign") [VW x; VW y] k = k (VW (fsub x y)) /\
  run_item lf call (get "SubAssign<f32>forF32::sub_assign") [VW x; VF y] k = k (VW (fsub x y)) /\
  run_item lf call (get "SubAssign<F32>forf32::sub_assign") [VF x; VW y] k = k (VF (fsub x y)) /\
  run_item lf call (get "MulforF32::mul") [VW x; VW y] k = k (VW (fmul x y)) /\
  run_item lf call (get "Mul<f32>forF32::mul") [VW x; VF y] k = k (VW (fmul x y)) /\
  run_item lf call (get "Mul<F32>forf32::mul") [VF x; VW y] k = k (VW (fmul x y)) /\
  run_item lf call (get "MulAssignforF32::mul_assign") [VW x; VW y] k = k (VW (fmul x y)) /\
  run_item lf call (get "MulAssign<f32>forF32::mul_assign") [VW x; VF y] k = k (VW (fmul x y)) /\
  run_item lf call (get "MulAssign<F32>forf32::mul_assign") [VF x; VW y] k = k (VF (fmul x y)) /\
  run_item lf call (get "DivforF32::div") [VW x; VW y] k = k (VW (fdiv x y)) /\
  run_item lf call (get "Div<f32>forF32::div") [VW x; VF y] k = k (VW (fdiv x y)) /\
  run_item lf call (get "Div<F32>forf32::div") [VF x; VW y] k = k (VW (fdiv x y)) /\
  run_item lf call (get "DivAssignforF32::div_assign") [VW x; VW y] k = k (VW (fdiv x y)) /\
  run_item lf call (get "DivAssign<f32>forF32::div_assign") [VW x; VF y] k = k (VW (fdiv x y)) /\
  run_item lf call (get "DivAssign<F32>forf32::div_assign") [VF x; VW y] k = k (VF (fdiv x y)) /\
  run_item lf call (get "RemforF32::rem") [VW x; VW y] k = k (VW (frem x y)) /\
  run_item lf call (get "Rem<f32>forF32::rem") [VW x; VF y] k = k (VW (frem x y)) /\
  run_item lf call (get "Rem<F32>forf32::rem") [VF x; VW y] k = k (VW (frem x y)) /\
  run_item lf call (get "RemAssignforF32::rem_assign") [VW x; VW y] k = k (VW (frem x y)) /\
  run_item lf call (get "RemAssign<f32>forF32::rem_assign") [VW x; VF y] k = k (VW (frem x y)) /\
  run_item lf call (get "NegforF32::neg") [VW x] k = k (VW (fneg x)) /\
  run_item lf call (get "PartialEq<f32>forF32::eq") [VW x; VF y] k = k (VB (feq x y)) /\
  run_item lf call (get "PartialEq<F32>forf32::eq") [VF x; VW y] k = k (VB (feq x y)) /\
  run_item lf call (get "PartialOrd<f32>forF32::partial_cmp") [VW x; VF y] k = k (VC (Bcompare 24 128 x y)) /\
  run_item lf call (get "PartialOrd<F32>forf32::partial_cmp") [VF x; VW y] k = k (VC (Bcompare 24 128 x y)) /\
  run_item lf call (get "From<f32>forF32::from") [VF x] k = k (VW x) /\
  run_item lf call (get "From<F32>forf32::from") [VW x] k = k (VF x) /\
  run_item lf call (get "From<i8>forF32::from") [VI I8 n] k = k (VW (F32_from_int n)) /\
  run_item lf call (get "From<i16>forF32::from") [VI I16 n] k = k (VW (F32_from_int n)) /\
  run_item lf call (get "From<u8>forF32::from") [VI U8 n] k = k (VW (F32_from_int n)) /\
  run_item lf call (get "From<u16>forF32::from") [VI U16 n] k = k (VW (F32_from_int n)).
Proof.
  intros. 
  split; [rewrite g_0; sim; reflexivity|].
  split; [rewrite g_1; sim; reflexivity|].
  split; [rewrite g_2; sim; reflexivity|].
  split; [rewrite g_3; sim; reflexivity|].
  split; [rewrite g_4; sim; reflexivity|].
  split; [rewrite g_5; sim; reflexivity|].
  split; [rewrite g_6; sim; reflexivity|].
  split; [rewrite g_7; sim; reflexivity|].
  split; [rewrite g_8; sim; reflexivity|].
  split; [rewrite g_9; sim; reflexivity|].
  split; [rewrite g_10; sim; reflexivity|].
  split; [rewrite g_11; sim; reflexivity|].
  split; [rewrite g_12; sim; reflexivity|].
  split; [rewrite g_13; sim; reflexivity|].
  split; [rewrite g_14; sim; reflexivity|].
  split; [rewrite g_15; sim; reflexivity|].
  split; [rewrite g_16; sim; reflexivity|].
  split; [rewrite g_17; sim; reflexivity|].
  split; [rewrite g_18; sim; reflexivity|].
  split; [rewrite g_19; sim; reflexivity|].
  split; [rewrite g_20; sim; reflexivity|].
  split; [rewrite g_21; sim; reflexivity|].
  split; [rewrite g_22; sim; reflexivity|].
  split; [rewrite g_23; sim; reflexivity|].
  split; [rewrite g_24; sim; reflexivity|].
  split; [rewrite g_25; sim; reflexivity|].
  split; [rewrite g_26; sim; reflexivity|].
  split; [rewrite g_27; sim; reflexivity|].
  split; [rewrite g_28; sim; reflexivity|].
  split; [rewrite g_29; sim; reflexivity|].
  split; [rewrite g_30; sim; reflexivity|].
  split; [rewrite g_31; sim; reflexivity|].
  split; [rewrite g_32; sim; reflexivity|].
  split; [rewrite g_33; sim; reflexivity|].
  split; [rewrite g_34; sim; reflexivity|].
  split; [rewrite g_35; sim; reflexivity|].
  split; [rewrite g_36; sim; reflexivity|].
  split; [rewrite g_37; sim; reflexivity|].
  split; [rewrite g_38; sim; reflexivity|].
  rewrite g_39; sim; reflexivity.
Qed.

(** The impls of the traits of num-traits. *)
Lemma source_num_traits : forall {E : Env} lf k x,
  run_item lf (link lf linked) (get "ZeroforF32::zero") [] k = k (VW F32_ZERO) /\
  run_item lf (link lf linked) (get "ZeroforF32::is_zero") [VW x] k = k (VB (feq F32_ZERO x)) /\
  run_item lf (link lf linked) (get "OneforF32::one") [] k = k (VW F32_ONE) /\
  run_item lf (link lf linked) (get "OneforF32::is_one") [VW x] k = k (VB (feq F32_ONE x)) /\
  run_item lf (link lf linked) (get "InvforF32::inv") [VW x] k = k (VW (F32_inv x)).
Proof.
  intros. rewrite link_all.
  split; [rewrite g_40; sim; reflexivity|].
  split; [rewrite g_41; sim; reflexivity|].
  split; [rewrite g_42; sim; reflexivity|].
  split; [rewrite g_43; sim; reflexivity|].
  rewrite g_44; sim; reflexivity.
Qed.

(** Every file is read, and every function of src/float/*.rs is among those
    linked. *)
Lemma source_covered : 
  parse_files sources = Some program /\
  exists l, parse_files (tl sources) = Some l /\ List.length l = 36%nat /\
    forall i, In i l -> In (key i) order /\ i_body i <> None.
Proof.
  split. vm_compute. reflexivity.
  destruct (parse_files (tl sources)) as [l|] eqn:L.
  - exists l. split. reflexivity.
    assert (C : (Nat.eqb (List.length l) 36 && forallb (fun i => existsb (String.eqb (key i)) order
      && match i_body i with Some _ => true | None => false end) l)%bool = true).
    { assert (C : match parse_files (tl sources) with
        | Some l => (Nat.eqb (List.length l) 36 && forallb (fun i => existsb (String.eqb (key i)) order
            && match i_body i with Some _ => true | None => false end) l)%bool
        | None => false end = true) by (vm_compute; reflexivity).
      rewrite L in C. exact C. }
    apply andb_prop in C. destruct C as [C1 C2]. apply Nat.eqb_eq in C1. split. exact C1.
    rewrite forallb_forall in C2. intros i Hi. specialize (C2 i Hi).
    apply andb_prop in C2. destruct C2 as [C2 C3]. split.
    + apply existsb_exists in C2. destruct C2 as [s [Hs Q]]. apply String.eqb_eq in Q. subst s. exact Hs.
    + destruct (i_body i); [discriminate|discriminate C3].
  - exfalso. assert (C : match parse_files (tl sources) with Some _ => true | None => false end = true)
      by (vm_compute; reflexivity). rewrite L in C. discriminate C.
Qed.
