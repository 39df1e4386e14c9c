(** * Property C131: which functions respect equality of floats *)

From Coq Require Import ZArith Reals Bool List Lia Lra.
From Flocq Require Import Core IEEE754.Binary IEEE754.Bits.
From Verif Require Import Base Spec SpecEq Float Vector Quaternion Equality TestEnv P_FunEq.
Import ListNotations.
Open Scope Z_scope.

(** ** C131 *)

(** Equal arguments, identical results (so -0.0 is treated as +0.0). *)
Theorem C131_identical : forall {E : Env} x y, feq x y = true ->
  F32_abs x = F32_abs y /\ F32_floor x = F32_floor y /\ F32_ceil x = F32_ceil y /\ F32_round x = F32_round y /\
  F32_cos x = F32_cos y /\ F32_sin x = F32_sin y /\ F32_tan x = F32_tan y /\
  F32_acos x = F32_acos y /\ F32_exp x = F32_exp y /\ F32_cosh x = F32_cosh y.
Proof. exact @fun_same. Qed.
Print Assumptions C131_identical.

(** The same for hypot. *)
Theorem C131_hypot : forall {E : Env} x x' y y', feq x x' = true -> feq y y' = true -> F32_hypot x y = F32_hypot x' y'.
Proof. exact @fun_same2. Qed.
Print Assumptions C131_hypot.

(** Equal results; asin panics for both or for neither. *)
Theorem C131_equal : forall {E : Env} x y, feq x y = true ->
  alike (F32_trunc x) (F32_trunc y) /\ both alike (F32_fract x) (F32_fract y) /\ alike (F32_atan x) (F32_atan y) /\
  ((F32_asin x = Panic /\ F32_asin y = Panic) \/ both alike (F32_asin x) (F32_asin y)).
Proof. exact @fun_alike. Qed.
Print Assumptions C131_equal.

(** Of two and three arguments.  atan2 does not tell the signs of zeros apart, unlike the C function. *)
Theorem C131_equal2 : forall {E : Env} x x' y y' z z', feq x x' = true -> feq y y' = true -> feq z z' = true ->
  alike (F32_atan2 x y) (F32_atan2 x' y') /\ alike (F32_mul_add x y z) (F32_mul_add x' y' z') /\
  alike (F32_rem_euclid x y) (F32_rem_euclid x' y').
Proof. exact @fun_alike2. Qed.
Print Assumptions C131_equal2.

(** Euler angles of equal finite quaternions. *)
Theorem C131_euler : forall {E : Env} p q, fin (q0 p) -> fin (q1 p) -> fin (q2 p) -> fin (q3 p) -> q_eq p q = true ->
  (Q_to_euler p = Panic /\ Q_to_euler q = Panic) \/
  exists r1 p1 y1 r2 p2 y2, Q_to_euler p = Ok (r1, p1, y1) /\ Q_to_euler q = Ok (r2, p2, y2) /\ alike r1 r2 /\ alike p1 p2 /\ alike y1 y2.
Proof. exact @euler_cong. Qed.
Print Assumptions C131_euler.

(** Axis and angle. *)
Theorem C131_axis_angle : forall {E : Env} v w x y, v3_eq feq v w = true -> feq x y = true ->
  q4rel alike (Q_axis_angle (fun c => c) v x) (Q_axis_angle (fun c => c) w y).
Proof. exact @axis_cong. Qed.
Print Assumptions C131_axis_angle.

(** The other functions do tell +0.0 from -0.0: in particular sqrt(-0.0) is 1.5 * 2^64 and ln(-0.0) is NaN while ln(0.0) is finite. *)
Theorem C131_refuted : forall {E : Env}, let p := f32_zero false in let n := f32_zero true in
  feq p n = true /\
  (F32_signum p = F32_ONE /\ F32_signum n = fneg F32_ONE) /\
  (F32_sqrt p = Ok (from_bits 0x1FC00000) /\ F32_sqrt n = Ok (from_bits 0x5FC00000)) /\
  (F32_invsqrt p = Ok (from_bits 0x5F375A86) /\ F32_invsqrt n = Ok (from_bits 0x1F375A86)) /\
  (F32_inv p = from_bits 0x7F000000 /\ F32_inv n = f32_zero false) /\
  (F32_recip p = F32_INFINITY /\ F32_recip n = F32_NEG_INFINITY) /\
  (F32_ln p = from_bits 0xC2B00F3C /\ nan (F32_ln n)) /\
  (F32_log2 p = from_bits 3271426060 /\ nan (F32_log2 n)) /\ (F32_log10 p = from_bits 3256413281 /\ nan (F32_log10 n)).
Proof. exact @fun_tell. Qed.
Print Assumptions C131_refuted.

(** atan2 at the signed zeros and two points of each axis. *)
Example C131_case :
  let P := [(0, 0x3F800000); (0x80000000, 0x3F800000); (0, 0xBF800000); (0x80000000, 0xBF800000);
            (0x3F800000, 0); (0x3F800000, 0x80000000); (0xBF800000, 0); (0xBF800000, 0x80000000)] in
  map (fun b => to_bits (@F32_atan2 env_debug (from_bits (fst b)) (from_bits (snd b)))) P =
    [0; 0; 1078530011; 1078530011; 1070141403; 1070141403; 3217625051; 3217625051] /\
  map to_bits [F32_trunc (from_bits 0x80000000); @F32_floor env_debug (from_bits 0x80000000); @F32_ceil env_debug (from_bits 0); @F32_cos env_debug (from_bits 0x80000000)] =
    [2147483648; 0; 2147483648; 1065353216].
Proof. vm_compute. split; reflexivity. Qed.
