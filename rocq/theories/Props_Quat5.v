(** * Property C123: the laws of quaternion algebra in f32, up to rounding *)

From Coq Require Import ZArith Reals Bool List Lia Lra.
From Flocq Require Import Core IEEE754.Binary IEEE754.Bits.
From Verif Require Import Base Spec SpecQuat Float Vector Quaternion TestEnv F32Lemmas BitLemmas QuatReal P_RoundEdge P_Quat P_Quat4 P_Quat5.
Import ListNotations.
Open Scope Z_scope.

(** ** C123 *)

(** (p q) r and p (q r) for |p| <= P, |q| <= Q, |r| <= R'. *)
Theorem C123_associative : forall {E : Env} p q r P Q R', fin_quat p -> fin_quat q -> fin_quat r ->
  (T_qdot (Q_R p) (Q_R p) <= P * P)%R -> (T_qdot (Q_R q) (Q_R q) <= Q * Q)%R -> (T_qdot (Q_R r) (Q_R r) <= R' * R')%R ->
  (1 <= P <= bpow radix2 30)%R -> (1 <= Q <= bpow radix2 30)%R -> (1 <= R' <= bpow radix2 30)%R ->
  let a := @q_mul _ arith_f32 (@q_mul _ arith_f32 p q) r in let b := @q_mul _ arith_f32 p (@q_mul _ arith_f32 q r) in
  let e := (85 * bpow radix2 (-24) * (P * Q * R'))%R in
  fin_quat a /\ near e (q0 a) (val (q0 b)) /\ near e (q1 a) (val (q1 b)) /\ near e (q2 a) (val (q2 b)) /\ near e (q3 a) (val (q3 b)).
Proof. exact @mul_assoc_f32. Qed.
Print Assumptions C123_associative.

(** Not exactly: (4097 * 4097) * 4099 and 4097 * (4097 * 4099) round differently. *)
Theorem C123_associative_refuted : forall {E : Env}, exists p q r : Quat f32, fin_quat p /\ fin_quat q /\ fin_quat r /\
  val (q0 (@q_mul _ arith_f32 (@q_mul _ arith_f32 p q) r)) <> val (q0 (@q_mul _ arith_f32 p (@q_mul _ arith_f32 q r))).
Proof. exact @assoc_broken. Qed.
Print Assumptions C123_associative_refuted.

(** Rotating by a product is rotating twice. *)
Theorem C123_compose : forall {E : Env} p q v P Q V, fin_quat p -> fin_quat q -> fin_vec v ->
  (T_qdot (Q_R p) (Q_R p) <= P * P)%R -> (T_qdot (Q_R q) (Q_R q) <= Q * Q)%R -> (T_dot (V3_R v) (V3_R v) <= V * V)%R ->
  (1 <= P <= bpow radix2 20)%R -> (1 <= Q <= bpow radix2 20)%R -> (1 <= V <= bpow radix2 20)%R ->
  let a := @q_rotate _ arith_f32 (@q_mul _ arith_f32 p q) v in let b := @q_rotate _ arith_f32 p (@q_rotate _ arith_f32 q v) in
  let e := (380 * bpow radix2 (-24) * (P * P * (Q * Q) * V))%R in
  fin_vec b /\ near e (v3x a) (val (v3x b)) /\ near e (v3y a) (val (v3y b)) /\ near e (v3z a) (val (v3z b)).
Proof. exact @rotate_compose_f32. Qed.
Print Assumptions C123_compose.

(** Not exactly: p = 4097 + j + 2k, q = 4099 + 3i + k, v = (3, 5, 7). *)
Theorem C123_compose_refuted : forall {E : Env}, exists (p q : Quat f32) v, fin_quat p /\ fin_quat q /\ fin_vec v /\
  val (v3x (@q_rotate _ arith_f32 (@q_mul _ arith_f32 p q) v)) <> val (v3x (@q_rotate _ arith_f32 p (@q_rotate _ arith_f32 q v))).
Proof. exact @compose_broken. Qed.
Print Assumptions C123_compose_refuted.

(** Rotating by q and then by its conjugate gives |q|^4 v. *)
Theorem C123_back : forall {E : Env} q v Q V, fin_quat q -> fin_vec v ->
  (T_qdot (Q_R q) (Q_R q) <= Q * Q)%R -> (T_dot (V3_R v) (V3_R v) <= V * V)%R ->
  (1 <= Q <= bpow radix2 20)%R -> (1 <= V <= bpow radix2 20)%R ->
  let b := @q_rotate _ arith_f32 (@q_conj _ arith_f32 q) (@q_rotate _ arith_f32 q v) in
  let e := (241 * bpow radix2 (-24) * (Q * Q * (Q * Q) * V))%R in let N := T_qdot (Q_R q) (Q_R q) in
  near e (v3x b) (N * N * val (v3x v)) /\ near e (v3y b) (N * N * val (v3y v)) /\ near e (v3z b) (N * N * val (v3z v)).
Proof. exact @rotate_back_f32. Qed.
Print Assumptions C123_back.

(** |p q|^2 = |p|^2 |q|^2. *)
Theorem C123_norm : forall {E : Env} p q P Q, fin_quat p -> fin_quat q ->
  (T_qdot (Q_R p) (Q_R p) <= P * P)%R -> (T_qdot (Q_R q) (Q_R q) <= Q * Q)%R ->
  (1 <= P <= bpow radix2 20)%R -> (1 <= Q <= bpow radix2 20)%R ->
  near (71 * bpow radix2 (-24) * (P * P * (Q * Q))) (@q_norm _ arith_f32 (@q_mul _ arith_f32 p q)) (T_qdot (Q_R p) (Q_R p) * T_qdot (Q_R q) (Q_R q)).
Proof. exact @norm_mul_f32. Qed.
Print Assumptions C123_norm.

(** Rotation keeps inner products, hence lengths and angles, up to |q|^4. *)
Theorem C123_isometry : forall {E : Env} q u v Q Vu Vv, fin_quat q -> fin_vec u -> fin_vec v ->
  (T_qdot (Q_R q) (Q_R q) <= Q * Q)%R -> (T_dot (V3_R u) (V3_R u) <= Vu * Vu)%R -> (T_dot (V3_R v) (V3_R v) <= Vv * Vv)%R ->
  (1 <= Q <= bpow radix2 20)%R -> (1 <= Vu <= bpow radix2 20)%R -> (1 <= Vv <= bpow radix2 20)%R ->
  let a := @q_rotate _ arith_f32 q u in let b := @q_rotate _ arith_f32 q v in let N := T_qdot (Q_R q) (Q_R q) in
  fin_vec a /\ fin_vec b /\
  (Rabs (T_dot (V3_R a) (V3_R b) - N * N * T_dot (V3_R u) (V3_R v)) <= 321 * bpow radix2 (-24) * (Q * Q * (Q * Q) * (Vu * Vv)))%R.
Proof. exact @rotate_isometry_f32. Qed.
Print Assumptions C123_isometry.

(** q times its inverse: the scalar part is off by up to 12.5 percent, the vector
    part only by roundings. *)
Theorem C123_inverse : forall {E : Env} q, Forall sq_ok (q_list q) -> (bpow radix2 (-80) <= T_qdot (Q_R q) (Q_R q) <= bpow radix2 80)%R ->
  exists r, Q_inv q = Ok r /\ let p := @q_mul _ arith_f32 q r in
    fin_quat p /\ (0.999997 <= val (q0 p) <= 1.12502)%R /\
    (Rabs (val (q1 p)) <= 0.0000012)%R /\ (Rabs (val (q2 p)) <= 0.0000012)%R /\ (Rabs (val (q3 p)) <= 0.0000012)%R.
Proof. exact @mul_inv_f32. Qed.
Print Assumptions C123_inverse.

(** Two turns about one axis add up. *)
Theorem C123_axis_angle : forall {E : Env} v a b, fin_vec v -> fin a -> fin b -> (Rabs (val a) <= 8192)%R -> (Rabs (val b) <= 8192)%R ->
  (Rabs (T_dot (V3_R v) (V3_R v) - 1) <= 0.00001)%R ->
  let p := @q_mul _ arith_f32 (Q_axis_angle (fun x => x) v a) (Q_axis_angle (fun x => x) v b) in let t := ((val a + val b) / 2)%R in
  near 0.0077 (q0 p) (cos t) /\ near 0.0077 (q1 p) (val (v3x v) * sin t) /\ near 0.0077 (q2 p) (val (v3y v) * sin t) /\ near 0.0077 (q3 p) (val (v3z v) * sin t).
Proof. exact @axis_angle_add. Qed.
Print Assumptions C123_axis_angle.

(** p = 1 + 2i + 3j + 4k, q = 2 - i + 5j + 3k: |p|^2 = 30, |q|^2 = 39, p q = -23 - 8i + j + 24k
    of norm 1170; p p^-1 = 1.0546875; the rotations of (3, 5, 7) agree exactly here. *)
Example C123_case :
  let z := f32_of_Z in let p := mkQ (z 1) (z 2) (z 3) (z 4) in let q := mkQ (z 2) (z (-1)) (z 5) (z 3) in let v := mkV3 (z 3) (z 5) (z 7) in
  let A := @arith_f32 env_debug in let b := fun q => map to_bits (q_to_array q) in let w := fun v => map to_bits (v3_to_array v) in
  b (@q_mul _ A p q) = map to_bits [z (-23); z (-8); z 1; z 24] /\ to_bits (@q_norm _ A (@q_mul _ A p q)) = to_bits (z 1170) /\
  match @Q_inv env_debug p with Ok r => b (@q_mul _ A p r) | _ => [] end = [1065811968; 0; 0; 0] /\
  w (@q_rotate _ A (@q_mul _ A p q) v) = w (@q_rotate _ A p (@q_rotate _ A q v)) /\
  w (@q_rotate _ A (@q_conj _ A p) (@q_rotate _ A p v)) = map to_bits [z 2700; z 4500; z 6300].
Proof. vm_compute. repeat split. Qed.

(** The hypotheses of the bounds hold for them with P = 11/2, Q = 25/4. *)
Example C123_bounds :
  let z := f32_of_Z in let p := mkQ (z 1) (z 2) (z 3) (z 4) in let q := mkQ (z 2) (z (-1)) (z 5) (z 3) in
  fin_quat p /\ fin_quat q /\ (T_qdot (Q_R p) (Q_R p) <= 11 / 2 * (11 / 2))%R /\ (T_qdot (Q_R q) (Q_R q) <= 25 / 4 * (25 / 4))%R.
Proof.
  cbv zeta. split; [repeat split|]. split; [repeat split|]. unfold T_qdot, T_dot, T_vec, Q_R. cbn [q0 q1 q2 q3 v3x v3y v3z].
  rewrite (proj2 (f32_of_Z_exact 1 ltac:(lia))), (proj2 (f32_of_Z_exact 2 ltac:(lia))), (proj2 (f32_of_Z_exact 3 ltac:(lia))),
    (proj2 (f32_of_Z_exact 4 ltac:(lia))), (proj2 (f32_of_Z_exact 5 ltac:(lia))), (proj2 (f32_of_Z_exact (-1) ltac:(lia))). split; lra.
Qed.

(** Turns by 1 and 2 about the z axis: (0.070973, 0.998654) against cos 1.5 = 0.070737, sin 1.5 = 0.997495. *)
Example C123_axis_case :
  let z := f32_of_Z in let A := @arith_f32 env_debug in let t := fun n => @Q_axis_angle env_debug _ (fun x => x) (mkV3 (z 0) (z 0) (z 1)) (z n) in
  map to_bits (q_to_array (@q_mul _ A (t 1) (t 2))) = [1032935984; 0; 0; 1065330633].
Proof. vm_compute. reflexivity. Qed.
