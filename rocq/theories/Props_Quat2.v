(** * Properties C79, C83 (continued), C102-C104: textbook formulas, operators, direction of from_two_vectors *)

From Coq Require Import ZArith Reals Bool List Lia Lra.
From Flocq Require Import Core IEEE754.Binary IEEE754.Bits.
From Verif Require Import Base Spec Float Vector Quaternion TestEnv F32Lemmas BitLemmas P_Roots P_Vector P_VecInt P_VecF32
  QuatReal P_Quat P_Quat2 SpecQuat P_Quat3 P_Quat4.
Import ListNotations.
Open Scope Z_scope.

(** ** C79: the result of normalize is a positive multiple of the argument *)

Theorem C79_direction : forall {E : Env} q, Forall sq_ok (q_list q) -> (0 < rsumsq (q_list q) <= bpow radix2 126)%R ->
  exists k, Q_normalize q = Ok (mkQ (fmul (q0 q) k) (fmul (q1 q) k) (fmul (q2 q) k) (fmul (q3 q) k)) /\
    fin k /\ (0 < val k)%R.
Proof. exact @normalize_direction. Qed.
Print Assumptions C79_direction.

(** ** C83: the axis of the antiparallel branch is orthogonal to [u] and at least |u|/sqrt 2 long *)

Theorem C83_antiparallel_axis : forall {E : Env} u v n q, vec_le u (bpow radix2 29) -> vec_le v (bpow radix2 29) ->
  F32_sqrt (fmul (dot3 u u) (dot3 v v)) = Ok n -> flt (fadd n (dot3 u v)) (fmul c_1em6 n) = true ->
  Q_from_two_vectors (H := comp_f32) idf u v = Ok q ->
  exists w k, q = @q_scale _ arith_f32 (mkQ F32_ZERO (v3x w) (v3y w) (v3z w)) k /\
    T_dot (V3_R w) (V3_R u) = 0%R /\ (T_dot (V3_R u) (V3_R u) <= 2 * T_dot (V3_R w) (V3_R w))%R /\
    fin k /\ (0 < val k)%R.
Proof. exact @from_two_perp_strong. Qed.
Print Assumptions C83_antiparallel_axis.

(** ** C102: [*] on vectors is the cross product, [*] of a quaternion and a vector is rotate *)

Theorem C102_mul_3_checked : forall {E : Env} t v w c, int_type t -> overflow_checks = true ->
  (v3_mul (H := comp_int t) v w = Ok c <->
   Forall (fits t) [v3y v * v3z w; v3z v * v3y w; v3y v * v3z w - v3z v * v3y w;
                    v3z v * v3x w; v3x v * v3z w; v3z v * v3x w - v3x v * v3z w;
                    v3x v * v3y w; v3y v * v3x w; v3x v * v3y w - v3y v * v3x w] /\
   c = mkV3 (v3y v * v3z w - v3z v * v3y w) (v3z v * v3x w - v3x v * v3z w)
            (v3x v * v3y w - v3y v * v3x w)).
Proof. exact @v3_mul_int. Qed.
Print Assumptions C102_mul_3_checked.

Theorem C102_mul_2 : forall {E : Env} t v w, int_type t ->
  (overflow_checks = true -> forall c, v2_mul (H := comp_int t) v w = Ok c <->
     fits t (v2x v * v2y w) /\ fits t (v2y v * v2x w) /\ fits t (v2x v * v2y w - v2y v * v2x w) /\
     c = mkV3 0 0 (v2x v * v2y w - v2y v * v2x w)) /\
  (forall c, v2_mul (H := comp_int t) v w = Ok c ->
     v3x c = 0 /\ v3y c = 0 /\ wraps_to t (v2x v * v2y w - v2y v * v2x w) (v3z c)).
Proof. exact @v2_mul_int. Qed.
Print Assumptions C102_mul_2.

(** For every component type and build mode the operator and the method agree. *)
Theorem C102_mul_is_cross : forall {C} `{Component C} (a b : Vector3d C) (v w : Vector2d C),
  v3_mul a b = v3_cross a b /\ v2_mul v w = v2_cross v w.
Proof. exact @mul_is_cross. Qed.
Print Assumptions C102_mul_is_cross.

Theorem C102_cross_f32_rounding : forall {E : Env} u v U V, vec_le u U -> vec_le v V -> (U * V <= bpow radix2 120)%R ->
  exists w, v3_cross (H := comp_f32) u v = Ok w /\
  let s := T_cross (V3_R u) (V3_R v) in let e := (5 * bpow radix2 (-24) * (U * V) + bpow radix2 (-148))%R in
  near e (v3x w) (v3x s) /\ near e (v3y w) (v3y s) /\ near e (v3z w) (v3z s).
Proof. exact @cross_f32_error. Qed.
Print Assumptions C102_cross_f32_rounding.

Theorem C102_mul_vector : forall {E : Env} q v Q V, quat_le q Q -> vec_le v V ->
  (Q * Q <= bpow radix2 120)%R -> (V <= bpow radix2 120)%R -> (Q * Q * V <= bpow radix2 120)%R ->
  let r := Q_mul_vector idf q v in let s := T_rotate (Q_R q) (V3_R v) in
  let e := (80 * bpow radix2 (-24) * (Q * Q * V) + bpow radix2 (-145) * (V + 1))%R in
  r = Q_rotate idf q v /\
  near e (v3x r) (v3x s) /\ near e (v3y r) (v3y s) /\ near e (v3z r) (v3z s).
Proof. exact @mul_vector_textbook. Qed.
Print Assumptions C102_mul_vector.

Example C102_case : v2_mul (H := @comp_int env_debug i16) (mkV2 3 4) (mkV2 5 7) = Ok (mkV3 0 0 1) /\
  v3_mul (H := @comp_int env_debug i16) (mkV3 1 2 3) (mkV3 4 5 6) = Ok (mkV3 (-3) 6 (-3)) /\
  v3_mul (H := @comp_int env_debug i8) (mkV3 100 2 3) (mkV3 4 5 6) = Panic.
Proof. repeat split; vm_compute; reflexivity. Qed.

(** ** C103: the expanded polynomials are the textbook formulas *)

Theorem C103_textbook : forall p q v,
  Rq_mul p q = T_mul p q /\ Rq_conj q = T_conj q /\ Rq_dot p q = T_qdot p q /\ Rq_norm q = T_qdot q q /\
  Rq_rotate q v = T_rotate q v.
Proof. exact textbook. Qed.
Print Assumptions C103_textbook.

Theorem C103_mul_rounding : forall {E : Env} p q P Q, quat_le p P -> quat_le q Q -> (P * Q <= bpow radix2 120)%R ->
  let r := @q_mul _ arith_f32 p q in let s := T_mul (Q_R p) (Q_R q) in
  let e := (14 * bpow radix2 (-24) * (P * Q) + bpow radix2 (-147))%R in
  near e (q0 r) (q0 s) /\ near e (q1 r) (q1 s) /\ near e (q2 r) (q2 s) /\ near e (q3 r) (q3 s).
Proof. exact @mul_textbook. Qed.
Print Assumptions C103_mul_rounding.

Theorem C103_dot_rounding : forall {E : Env} p q P Q, quat_le p P -> quat_le q Q -> (P * Q <= bpow radix2 120)%R ->
  near (14 * bpow radix2 (-24) * (P * Q) + bpow radix2 (-147)) (@q_dot _ arith_f32 p q) (T_qdot (Q_R p) (Q_R q)).
Proof. exact @dot_textbook. Qed.
Print Assumptions C103_dot_rounding.

Theorem C103_dot_symmetric : forall {E : Env} p q, same (@q_dot _ arith_f32 p q) (@q_dot _ arith_f32 q p) /\
  @q_norm _ arith_f32 q = @q_dot _ arith_f32 q q.
Proof. exact @dot_sym. Qed.
Print Assumptions C103_dot_symmetric.

(** (1 + 2i + 3j + 4k) . (5 + 6i + 7j + 8k) = 70. *)
Example C103_case : let p := mkQ (f32_of_Z 1) (f32_of_Z 2) (f32_of_Z 3) (f32_of_Z 4) in
  let q := mkQ (f32_of_Z 5) (f32_of_Z 6) (f32_of_Z 7) (f32_of_Z 8) in
  to_bits (@q_dot _ (@arith_f32 env_debug) p q) = to_bits (f32_of_Z 70) /\ quat_le p 8 /\ quat_le q 8.
Proof.
  intros p q. split; [vm_compute; reflexivity|].
  assert (G : forall n, 0 <= n <= 8 -> fin (f32_of_Z n) /\ (Rabs (val (f32_of_Z n)) <= 8)%R).
  { intros n H. destruct (f32_of_Z_exact n ltac:(lia)) as [A B]. split; [exact A|].
    rewrite B, <- abs_IZR. apply IZR_le. lia. }
  split; (split; [repeat split|]; repeat split; apply G; lia).
Qed.

(** ** C104: from_two_vectors turns [u] towards [v] *)

(** Exactly, for any real part n + u.v. *)
Theorem C104_between_exact : forall n u v, let b := T_mk (n + T_dot u v) (T_cross u v) in
  T_rotate b u = T_add (T_scale (n * n - T_dot u u * T_dot v v) u) (T_scale (2 * (n + T_dot u v) * T_dot u u) v) /\
  T_qdot b b = (n * n + 2 * n * T_dot u v + T_dot u u * T_dot v v)%R.
Proof. intros n u v. split; [apply between_general|apply between_norm_general]. Qed.
Print Assumptions C104_between_exact.

(** The f32 result is a multiple of that quaternion, with [n] between 0.999999
    and 1.0607 times |u||v|, up to 2^-19 per component. *)
Theorem C104_from_two_accuracy : forall {E : Env} u v, fin_vec u -> fin_vec v ->
  (bpow radix2 (-25) <= norm3 (V3_R u) <= bpow radix2 29)%R -> (bpow radix2 (-25) <= norm3 (V3_R v) <= bpow radix2 29)%R ->
  let N := (norm3 (V3_R u) * norm3 (V3_R v))%R in let d := T_dot (V3_R u) (V3_R v) in
  (- 0.9 * N <= d)%R ->
  exists q n k, Q_from_two_vectors (H := comp_f32) idf u v = Ok q /\
    ((1 - bpow radix2 (-20)) * N <= n <= 1.0607 * N)%R /\
    let b := T_mk (n + d) (T_cross (V3_R u) (V3_R v)) in let e := (bpow radix2 (-19) * (k * N))%R in
    (0 < k)%R /\ (0.965 <= k * sqrt (T_qdot b b) <= 1.035)%R /\
    near e (q0 q) (k * q0 b) /\ near e (q1 q) (k * q1 b) /\ near e (q2 q) (k * q2 b) /\ near e (q3 q) (k * q3 b).
Proof. exact @from_two_accuracy. Qed.
Print Assumptions C104_from_two_accuracy.

(** For vectors at most a right angle apart, rotating [u] by the result gives a
    vector within 4 degrees of [v] and about as long as [u]. *)
Theorem C104_from_two_turns : forall {E : Env} u v, fin_vec u -> fin_vec v ->
  (bpow radix2 (-25) <= norm3 (V3_R u) <= bpow radix2 29)%R -> (bpow radix2 (-25) <= norm3 (V3_R v) <= bpow radix2 29)%R ->
  let N := (norm3 (V3_R u) * norm3 (V3_R v))%R in
  (0 <= T_dot (V3_R u) (V3_R v))%R ->
  exists q, Q_from_two_vectors (H := comp_f32) idf u v = Ok q /\
  let r := Q_rotate idf q u in let c := T_cross (V3_R r) (V3_R v) in
  fin_vec r /\ (0.92 * N <= T_dot (V3_R r) (V3_R v))%R /\ (norm3 c <= 0.0635 * N)%R.
Proof. exact @from_two_turns. Qed.
Print Assumptions C104_from_two_turns.

(** (3, 0, 0) to (0, 4, 0): rotating (3, 0, 0) gives (0.1223, 2.9951, 0), 2.3 degrees off. *)
Example C104_case : let z := f32_zero false in let u := mkV3 (f32_of_Z 3) z z in let v := mkV3 z (f32_of_Z 4) z in
  exists q, @Q_from_two_vectors env_debug f32 (@comp_f32 env_debug) idf u v = Ok q /\
  let r := @Q_rotate env_debug f32 idf q u in map to_bits [v3x r; v3y r; v3z r] = [0x3DFA7964; 0x403FB066; 0].
Proof.
  intros z u v. eexists. split.
  - apply okq_bits; vm_compute; reflexivity.
  - vm_compute. reflexivity.
Qed.
