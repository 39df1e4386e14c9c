(** * Property C118: a quaternion and its negation *)

From Coq Require Import ZArith Reals Bool List Lia Lra.
From Flocq Require Import Core IEEE754.Binary IEEE754.Bits.
From Verif Require Import Base Spec SpecMore SpecSym Float Vector Quaternion TestEnv F32Lemmas BitLemmas Literals P_RoundEdge P_Sign.
Import ListNotations.
Open Scope Z_scope.

(** ** C118 *)

(** q and -q are the same rotation: bit for bit for finite q, and up to the
    choice of NaN for every q. *)
Theorem C118_rotate_bits : forall {E : Env} {C} (into : C -> f32) q v, qfin q -> Q_rotate into (qneg q) v = Q_rotate into q v.
Proof. exact @rotate_qneg_fin. Qed.
Print Assumptions C118_rotate_bits.

Theorem C118_rotate_all : forall {E : Env} {C} (into : C -> f32) q v, vrel same (Q_rotate into (qneg q) v) (Q_rotate into q v).
Proof. exact @rotate_qneg. Qed.
Print Assumptions C118_rotate_all.

Theorem C118_to_euler : forall {E : Env} q, qfin q -> Q_to_euler (qneg q) = Q_to_euler q.
Proof. exact @euler_qneg. Qed.
Print Assumptions C118_to_euler.

Theorem C118_norm : forall {E : Env} q, same (@q_norm _ arith_f32 (qneg q)) (@q_norm _ arith_f32 q).
Proof. exact @norm_qneg. Qed.
Print Assumptions C118_norm.

Theorem C118_magnitude : forall {E : Env} q, qfin q -> Q_magnitude (qneg q) = Q_magnitude q.
Proof. exact @magnitude_qneg. Qed.
Print Assumptions C118_magnitude.

(** normalize, inverse, conjugate and scaling commute with negation. *)
Theorem C118_normalize : forall {E : Env} q, qfin q ->
  (Q_normalize (qneg q) = Panic /\ Q_normalize q = Panic) \/
  exists a b, Q_normalize (qneg q) = Ok a /\ Q_normalize q = Ok b /\ qrel same a (qneg b).
Proof. exact @normalize_qneg. Qed.
Print Assumptions C118_normalize.

Theorem C118_inverse : forall {E : Env} q, qfin q ->
  (Q_inv (qneg q) = Panic /\ Q_inv q = Panic) \/
  exists a b, Q_inv (qneg q) = Ok a /\ Q_inv q = Ok b /\ qrel same a (qneg b).
Proof. exact @inv_qneg. Qed.
Print Assumptions C118_inverse.

Theorem C118_conjugate : forall {E : Env} q, @q_conj _ arith_f32 (qneg q) = qneg (@q_conj _ arith_f32 q).
Proof. exact @conj_qneg. Qed.
Print Assumptions C118_conjugate.

Theorem C118_scale : forall {E : Env} q k, qrel same (@q_scale _ arith_f32 (qneg q) k) (qneg (@q_scale _ arith_f32 q k)).
Proof. exact @scale_qneg. Qed.
Print Assumptions C118_scale.

Theorem C118_negation_is_scale : forall {E : Env} q, qrel same (@q_scale _ arith_f32 q (fneg F32_ONE)) (qneg q).
Proof. exact @qneg_is_scale. Qed.
Print Assumptions C118_negation_is_scale.

(** (-p) q = p (-q) = -(p q) as numbers, (-p)(-q) = p q bit for bit. *)
Theorem C118_product : forall {E : Env} p q,
  qrel negates (@q_mul _ arith_f32 p q) (@q_mul _ arith_f32 (qneg p) q) /\
  qrel negates (@q_mul _ arith_f32 p q) (@q_mul _ arith_f32 p (qneg q)) /\
  qrel same (@q_mul _ arith_f32 (qneg p) (qneg q)) (@q_mul _ arith_f32 p q).
Proof. exact @mul_qneg. Qed.
Print Assumptions C118_product.

(** Rotation is odd in the vector. *)
Theorem C118_rotate_negated_vector : forall {E : Env} {C} (into : C -> f32) q v v',
  vrel negates (v3_into_f32 into v) (v3_into_f32 into v') ->
  vrel negates (Q_rotate into q v) (Q_rotate into q v').
Proof. exact @rotate_vneg. Qed.
Print Assumptions C118_rotate_negated_vector.

(** Negating the axis conjugates the quaternion; so does swapping the
    vectors of from_two_vectors, outside the antiparallel case. *)
Theorem C118_axis_angle_negated_axis : forall {E : Env} {C} (into : C -> f32) v v' t,
  v3_into_f32 into v' = vneg (v3_into_f32 into v) ->
  qrel same (Q_axis_angle into v' t) (@q_conj _ arith_f32 (Q_axis_angle into v t)).
Proof. exact @axis_neg. Qed.
Print Assumptions C118_axis_angle_negated_axis.

Theorem C118_from_two_vectors_swapped : forall {E : Env} u v a, @Q_from_two_vectors E f32 comp_f32 (fun x => x) u v = Ok a ->
  qfin a -> (val (q0 a) <> 0)%R ->
  exists b, @Q_from_two_vectors E f32 comp_f32 (fun x => x) v u = Ok b /\ crel negates a b.
Proof. exact @two_vectors_swap. Qed.
Print Assumptions C118_from_two_vectors_swapped.

(** conj(p q) = conj(q) conj(p) fails in f32. *)
Theorem C118_conjugate_of_product_refuted : forall {E : Env}, exists p q, qfin p /\ qfin q /\
  val (q1 (@q_conj _ arith_f32 (@q_mul _ arith_f32 p q))) = (-16777215)%R /\
  val (q1 (@q_mul _ arith_f32 (@q_conj _ arith_f32 q) (@q_conj _ arith_f32 p))) = (-16777216)%R.
Proof. exact @conj_mul_bad. Qed.
Print Assumptions C118_conjugate_of_product_refuted.

(** The unit quaternion (1/2, 1/2, 1/2, 1/2) and its negation send (1, 2, 3) to (3, 1, 2). *)
Example C118_case :
  let h := from_bits 0x3F000000 in let q := mkQ h h h h in let v := mkV3 1 2 3 in
  map to_bits (v3_to_array (@Q_rotate env_debug Z f32_of_Z q v)) = map (fun k => to_bits (f32_of_Z k)) [3; 1; 2] /\
  map to_bits (v3_to_array (@Q_rotate env_debug Z f32_of_Z (qneg q) v)) = map (fun k => to_bits (f32_of_Z k)) [3; 1; 2] /\
  map to_bits (v3_to_array (@Q_rotate env_debug Z f32_of_Z q (mkV3 (-1) (-2) (-3)))) = map (fun k => to_bits (f32_of_Z k)) [-3; -1; -2].
Proof. vm_compute. repeat split. Qed.

(** from_two_vectors on (1, 2, 2) and (2, 1, 2), both ways: vector part negated. *)
Example C118_two_vectors_case :
  let u := mkV3 (f32_of_Z 1) (f32_of_Z 2) (f32_of_Z 2) in let v := mkV3 (f32_of_Z 2) (f32_of_Z 1) (f32_of_Z 2) in
  let b := fun r => match r with Ok q => map to_bits (q_to_array q) | _ => [] end in
  b (@Q_from_two_vectors env_debug f32 (@comp_f32 env_debug) (fun x => x) u v) = [1064952253; 1038766662; 1038766662; 3190799796] /\
  b (@Q_from_two_vectors env_debug f32 (@comp_f32 env_debug) (fun x => x) v u) = [1064952253; 3186250310; 3186250310; 1043316148].
Proof. vm_compute. split; reflexivity. Qed.
