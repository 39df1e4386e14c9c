(** * The source text and what the model says it means

    [program] is the text of src/float.rs and src/float/*.rs (SrcText.v) as read
    by RustSyntax.v.  [linked] lists the functions and constants so that each
    comes before the ones it refers to (Rust asks for no order; none of the
    functions is recursive).  [model_sem] gives for each of them the definition of
    Float.v that is meant to be its meaning. *)

From Coq Require Import ZArith Bool List String.
From Verif Require Import Base Float RustSyntax RustSem SrcText.
Import ListNotations.
Open Scope Z_scope.

Definition or_else {A : Type} (a : A) (o : option A) : A := match o with Some x => x | None => a end.

Definition program : list item := or_else [] (parse_files sources).

Definition get (f : string) : item :=
  or_else (mkitem "" "" "" [] "" false None) (find_item f program).

(** Constants and functions, each after those it refers to. *)
Definition order : list string :=
  [ "SIGN_MASK"; "EXPONENT_MASK"; "MANTISSA_MASK"; "EXPONENT_BIAS"; "MANTISSA_BITS";
    "F32::ZERO"; "F32::ONE"; "F32::EPSILON"; "F32::NAN"; "F32::INFINITY";
    "F32::NEG_INFINITY"; "F32::is_nan"; "F32::is_infinite"; "F32::is_finite";
    "F32::is_sign_positive"; "F32::is_sign_negative"; "F32::to_bits"; "F32::from_bits";
    "F32::extract_exponent_bits"; "F32::extract_exponent_value"; "F32::without_sign";
    "F32::set_exponent"; "F32::is_integer"; "F32::is_even"; "F32::abs";
    "F32::copysign"; "F32::signum"; "F32::trunc"; "F32::fract"; "F32::floor";
    "F32::ceil"; "F32::round"; "F32::rem_euclid"; "F32::div_euclid"; "F32::sqrt";
    "F32::invsqrt"; "F32::inv"; "F32::recip"; "F32::hypot"; "F32::mul_add"; "F32::cos";
    "F32::sin"; "F32::sin_cos"; "F32::tan"; "F32::atan_norm"; "F32::atan";
    "F32::atan2_norm"; "F32::atan2"; "F32::asin"; "F32::acos"; "F32::exp_smallx";
    "F32::exp_ln2_approx"; "F32::exp"; "F32::cosh"; "F32::ln"; "F32::log"; "F32::log2";
    "F32::log10"; "F32::powf"; "F32::powi" ]%string.

Definition linked : list item := map get (rev order).

(** Running a function of the source text; a [loop] goes round at most [lf] times. *)
Definition src_run {E : Env} (lf : nat) (f : string) (args : list V) : res V :=
  link lf linked f args Ok.

(** ** Meaning by the model *)

Definition sem : Type := list V -> (V -> res V) -> res V.

Fixpoint by_table (l : list (string * sem)) (f : string) (args : list V) (k : V -> res V) : res V :=
  match l with
  | [] => stuck
  | (s, m) :: l => if String.eqb f s then m args k else by_table l f args k
  end.

(** A constant; functions of one, two or three F32, total or not; a function of
    an F32 and an integer; a function of a u32. *)
Definition m0 (v : V) : sem := fun args k => match args with [] => k v | _ => stuck end.
Definition m1 (f : f32 -> V) : sem :=
  fun args k => match args with [VW x] => k (f x) | _ => stuck end.
Definition m1r (f : f32 -> res f32) : sem :=
  fun args k => match args with [VW x] => r <- f x ;; k (VW r) | _ => stuck end.
Definition m2 (f : f32 -> f32 -> V) : sem :=
  fun args k => match args with [VW x; VW y] => k (f x y) | _ => stuck end.
Definition m2r (f : f32 -> f32 -> res f32) : sem :=
  fun args k => match args with [VW x; VW y] => r <- f x y ;; k (VW r) | _ => stuck end.
Definition m3 (f : f32 -> f32 -> f32 -> V) : sem :=
  fun args k => match args with [VW x; VW y; VW z] => k (f x y z) | _ => stuck end.
Definition mz (t : it) (f : f32 -> Z -> res f32) : sem :=
  fun args k =>
    match args with
    | [VW x; VI u n] => if it_eqb u t then r <- f x n ;; k (VW r) else stuck
    | [VW x; VL n] => r <- f x n ;; k (VW r)
    | _ => stuck
    end.
Definition mu (f : Z -> V) : sem :=
  fun args k =>
    match args with
    | [VI U32 n] | [VL n] => k (f n)
    | _ => stuck
    end.

(** Latest first, as in [linked]. *)
Definition model_sem {E : Env} (lf : nat) : list (string * sem) :=
  [ ("F32::powi"%string, mz I32 (F32_powi lf));
    ("F32::powf"%string, m2r F32_powf);
    ("F32::log10"%string, m1 (fun x => VW (F32_log10 x)));
    ("F32::log2"%string, m1 (fun x => VW (F32_log2 x)));
    ("F32::log"%string, m2 (fun x y => VW (F32_log x y)));
    ("F32::ln"%string, m1 (fun x => VW (F32_ln x)));
    ("F32::cosh"%string, m1r F32_cosh);
    ("F32::exp"%string, m1r F32_exp);
    ("F32::exp_ln2_approx"%string, mz U32 (fun x n => F32_exp_ln2_approx x (Z.to_nat n)));
    ("F32::exp_smallx"%string, mz U32 (fun x n => Ok (F32_exp_smallx x (Z.to_nat n))));
    ("F32::acos"%string, m1r F32_acos);
    ("F32::asin"%string, m1r F32_asin);
    ("F32::atan2"%string, m2 (fun y x => VW (F32_atan2 y x)));
    ("F32::atan2_norm"%string, m2 (fun y x => VW (F32_atan2_norm y x)));
    ("F32::atan"%string, m1 (fun x => VW (F32_atan x)));
    ("F32::atan_norm"%string, m1 (fun x => VW (F32_atan_norm x)));
    ("F32::tan"%string, m1 (fun x => VW (F32_tan x)));
    ("F32::sin_cos"%string, m1 (fun x => VT [VW (fst (F32_sin_cos x)); VW (snd (F32_sin_cos x))]));
    ("F32::sin"%string, m1 (fun x => VW (F32_sin x)));
    ("F32::cos"%string, m1 (fun x => VW (F32_cos x)));
    ("F32::mul_add"%string, m3 (fun x a b => VW (F32_mul_add x a b)));
    ("F32::hypot"%string, m2r F32_hypot);
    ("F32::recip"%string, m1 (fun x => VW (F32_recip x)));
    ("F32::inv"%string, m1 (fun x => VW (F32_inv x)));
    ("F32::invsqrt"%string, m1r F32_invsqrt);
    ("F32::sqrt"%string, m1r F32_sqrt);
    ("F32::div_euclid"%string, m2 (fun x y => VW (F32_div_euclid x y)));
    ("F32::rem_euclid"%string, m2 (fun x y => VW (F32_rem_euclid x y)));
    ("F32::round"%string, m1 (fun x => VW (F32_round x)));
    ("F32::ceil"%string, m1 (fun x => VW (F32_ceil x)));
    ("F32::floor"%string, m1 (fun x => VW (F32_floor x)));
    ("F32::fract"%string, m1r F32_fract);
    ("F32::trunc"%string, m1 (fun x => VW (F32_trunc x)));
    ("F32::signum"%string, m1 (fun x => VW (F32_signum x)));
    ("F32::copysign"%string, m2 (fun x y => VW (F32_copysign x y)));
    ("F32::abs"%string, m1 (fun x => VW (F32_abs x)));
    ("F32::is_even"%string, m1 (fun x => VB (is_even x)));
    ("F32::is_integer"%string, m1 (fun x => VB (is_integer x)));
    ("F32::set_exponent"%string, mz I32 set_exponent);
    ("F32::without_sign"%string, m1 (fun x => VW (without_sign x)));
    ("F32::extract_exponent_value"%string, m1 (fun x => VI I32 (extract_exponent_value x)));
    ("F32::extract_exponent_bits"%string, m1 (fun x => VI U32 (extract_exponent_bits x)));
    ("F32::from_bits"%string, mu (fun b => VW (from_bits b)));
    ("F32::to_bits"%string, m1 (fun x => VI U32 (to_bits x)));
    ("F32::is_sign_negative"%string, m1 (fun x => VB (sign_bit x)));
    ("F32::is_sign_positive"%string, m1 (fun x => VB (negb (sign_bit x))));
    ("F32::is_finite"%string, m1 (fun x => VB (is_finite x)));
    ("F32::is_infinite"%string, m1 (fun x => VB (is_infinite x)));
    ("F32::is_nan"%string, m1 (fun x => VB (is_nan x)));
    ("F32::NEG_INFINITY"%string, m0 (VW F32_NEG_INFINITY));
    ("F32::INFINITY"%string, m0 (VW F32_INFINITY));
    ("F32::NAN"%string, m0 (VW f32_NAN));
    ("F32::EPSILON"%string, m0 (VW F32_EPSILON));
    ("F32::ONE"%string, m0 (VW F32_ONE));
    ("F32::ZERO"%string, m0 (VW F32_ZERO));
    ("MANTISSA_BITS"%string, m0 (VI U32 MANTISSA_BITS));
    ("EXPONENT_BIAS"%string, m0 (VI U32 EXPONENT_BIAS));
    ("MANTISSA_MASK"%string, m0 (VI U32 MANTISSA_MASK));
    ("EXPONENT_MASK"%string, m0 (VI U32 EXPONENT_MASK));
    ("SIGN_MASK"%string, m0 (VI U32 SIGN_MASK)) ].
