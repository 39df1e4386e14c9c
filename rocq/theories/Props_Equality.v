(** * Property C130: equality of vectors and quaternions *)

From Coq Require Import ZArith Reals Bool List Lia Lra.
From Flocq Require Import Core IEEE754.Binary IEEE754.Bits.
From Verif Require Import Base Spec SpecEq Float Vector Quaternion Equality TestEnv P_Equality.

Import ListNotations.
Open Scope Z_scope.

(** ** C130 *)

(** Vectors of integers: [==] is equality. *)
Theorem C130_int : (forall v w : Vector2d Z, v2_eq Z.eqb v w = true <-> v = w) /\ (forall v w : Vector3d Z, v3_eq Z.eqb v w = true <-> v = w).
Proof. exact @int_eq. Qed.
Print Assumptions C130_int.

(** Vectors of floats and quaternions: equal numbers in every component. *)
Theorem C130_f32 : (forall v w, v2_eq feq v w = true <-> v2rel num_eq v w) /\ (forall v w, v3_eq feq v w = true <-> v3rel num_eq v w) /\
  (forall p q, q_eq p q = true <-> q4rel num_eq p q).
Proof. exact @f32_eq. Qed.
Print Assumptions C130_f32.

(** Reflexive exactly without NaN; symmetric; transitive. *)
Theorem C130_equivalence : (forall v, v2_eq feq v v = true <-> ~ nan (v2x v) /\ ~ nan (v2y v)) /\
  (forall v, v3_eq feq v v = true <-> ~ nan (v3x v) /\ ~ nan (v3y v) /\ ~ nan (v3z v)) /\
  (forall q, q_eq q q = true <-> ~ nan (q0 q) /\ ~ nan (q1 q) /\ ~ nan (q2 q) /\ ~ nan (q3 q)) /\
  (forall v w, v2_eq feq v w = v2_eq feq w v) /\ (forall v w, v3_eq feq v w = v3_eq feq w v) /\ (forall p q, q_eq p q = q_eq q p) /\
  (forall u v w, v2_eq feq u v = true -> v2_eq feq v w = true -> v2_eq feq u w = true) /\
  (forall u v w, v3_eq feq u v = true -> v3_eq feq v w = true -> v3_eq feq u w = true) /\
  (forall p q r, q_eq p q = true -> q_eq q r = true -> q_eq p r = true).
Proof. exact @eq_equiv. Qed.
Print Assumptions C130_equivalence.

(** Only zeros can differ between equal vectors. *)
Theorem C130_same : (forall v w, v2_eq feq v w = true -> (val (v2x v) <> 0 \/ ~ fin (v2x v))%R -> (val (v2y v) <> 0 \/ ~ fin (v2y v))%R -> v = w) /\
  (forall v w, v3_eq feq v w = true -> (val (v3x v) <> 0 \/ ~ fin (v3x v))%R -> (val (v3y v) <> 0 \/ ~ fin (v3y v))%R -> (val (v3z v) <> 0 \/ ~ fin (v3z v))%R -> v = w).
Proof. exact @nonzero_same. Qed.
Print Assumptions C130_same.

(** Operations on equal vectors give equal results (or NaN in the same components). *)
Theorem C130_vector2d : forall {E : Env} v v' w w' k k', v2_eq feq v v' = true -> v2_eq feq w w' = true -> feq k k' = true ->
  both (v2rel alike) (@v2_add _ comp_f32 v w) (@v2_add _ comp_f32 v' w') /\
  both (v2rel alike) (@v2_sub _ comp_f32 v w) (@v2_sub _ comp_f32 v' w') /\
  both (v2rel alike) (@v2_scale _ comp_f32 v k) (@v2_scale _ comp_f32 v' k') /\
  both (v2rel alike) (@v2_div _ comp_f32 v k) (@v2_div _ comp_f32 v' k) /\
  both alike (@v2_dot _ comp_f32 v w) (@v2_dot _ comp_f32 v' w') /\
  both alike (@v2_perpendicular_dot _ comp_f32 v w) (@v2_perpendicular_dot _ comp_f32 v' w') /\
  both (v3rel alike) (@v2_cross _ comp_f32 v w) (@v2_cross _ comp_f32 v' w').
Proof. exact @v2_cong. Qed.
Print Assumptions C130_vector2d.

(** The same in three dimensions. *)
Theorem C130_vector3d : forall {E : Env} v v' w w' k k', v3_eq feq v v' = true -> v3_eq feq w w' = true -> feq k k' = true ->
  both (v3rel alike) (@v3_add _ comp_f32 v w) (@v3_add _ comp_f32 v' w') /\
  both (v3rel alike) (@v3_sub _ comp_f32 v w) (@v3_sub _ comp_f32 v' w') /\
  both (v3rel alike) (@v3_scale _ comp_f32 v k) (@v3_scale _ comp_f32 v' k') /\
  both (v3rel alike) (@v3_div _ comp_f32 v k) (@v3_div _ comp_f32 v' k) /\
  both alike (@v3_dot _ comp_f32 v w) (@v3_dot _ comp_f32 v' w') /\
  both (v3rel alike) (@v3_cross _ comp_f32 v w) (@v3_cross _ comp_f32 v' w').
Proof. exact @v3_cong. Qed.
Print Assumptions C130_vector3d.

(** Magnitude and distance are even identical. *)
Theorem C130_metric : forall {E : Env},
  (forall v v' w w', v2_eq feq v v' = true -> v2_eq feq w w' = true ->
     vt_magnitude (fun c => c) v = vt_magnitude (fun c => c) v' /\ vt_distance (fun c => c) v w = vt_distance (fun c => c) v' w' /\
     both (v2rel alike) (vt_normalized (fun c => c) (fun c => c) v) (vt_normalized (fun c => c) (fun c => c) v')) /\
  (forall v v' w w', v3_eq feq v v' = true -> v3_eq feq w w' = true ->
     vt_magnitude (fun c => c) v = vt_magnitude (fun c => c) v' /\ vt_distance (fun c => c) v w = vt_distance (fun c => c) v' w' /\
     both (v3rel alike) (vt_normalized (fun c => c) (fun c => c) v) (vt_normalized (fun c => c) (fun c => c) v')).
Proof. exact @v_cong_metric. Qed.
Print Assumptions C130_metric.

(** Quaternions. *)
Theorem C130_quaternion : forall {E : Env} p p' q q' k k' v v', q_eq p p' = true -> q_eq q q' = true -> feq k k' = true -> v3_eq feq v v' = true ->
  q4rel alike (@q_add _ arith_f32 p q) (@q_add _ arith_f32 p' q') /\
  q4rel alike (@q_sub _ arith_f32 p q) (@q_sub _ arith_f32 p' q') /\
  q4rel alike (@q_mul _ arith_f32 p q) (@q_mul _ arith_f32 p' q') /\
  q4rel alike (@q_scale _ arith_f32 p k) (@q_scale _ arith_f32 p' k') /\
  q4rel alike (@q_conj _ arith_f32 p) (@q_conj _ arith_f32 p') /\
  alike (@q_dot _ arith_f32 p q) (@q_dot _ arith_f32 p' q') /\
  v3rel alike (Q_rotate (fun c => c) q v) (Q_rotate (fun c => c) q' v') /\
  q4rel alike (@q_of_vector _ arith_f32 v) (@q_of_vector _ arith_f32 v').
Proof. exact @q_cong. Qed.
Print Assumptions C130_quaternion.

(** Norm and magnitude are identical; inverse and normalize panic together. *)
Theorem C130_quaternion_norm : forall {E : Env} p q, q_eq p q = true ->
  @q_norm _ arith_f32 p = @q_norm _ arith_f32 q /\ Q_magnitude p = Q_magnitude q /\
  ((Q_inv p = Panic /\ Q_inv q = Panic) \/ both (q4rel alike) (Q_inv p) (Q_inv q)) /\
  ((Q_normalize p = Panic /\ Q_normalize q = Panic) \/ both (q4rel alike) (Q_normalize p) (Q_normalize q)).
Proof. exact @q_cong_norm. Qed.
Print Assumptions C130_quaternion_norm.

(** The default vector is neutral, and v - v is equal to it. *)
Theorem C130_neutral : forall {E : Env},
  (forall v : Vector2d f32, ~ nan (v2x v) -> ~ nan (v2y v) ->
     exists r, @v2_add _ comp_f32 v (@v2_default _ comp_f32) = Ok r /\ v2_eq feq r v = true) /\
  (forall v : Vector3d f32, ~ nan (v3x v) -> ~ nan (v3y v) -> ~ nan (v3z v) ->
     exists r, @v3_add _ comp_f32 v (@v3_default _ comp_f32) = Ok r /\ v3_eq feq r v = true) /\
  (forall v : Vector2d f32, fin (v2x v) -> fin (v2y v) ->
     exists r, @v2_sub _ comp_f32 v v = Ok r /\ v2_eq feq r (@v2_default _ comp_f32) = true) /\
  (forall v : Vector3d f32, fin (v3x v) -> fin (v3y v) -> fin (v3z v) ->
     exists r, @v3_sub _ comp_f32 v v = Ok r /\ v3_eq feq r (@v3_default _ comp_f32) = true).
Proof. exact @neutral. Qed.
Print Assumptions C130_neutral.

(** The embedding in three dimensions and the conversion of 8 and 16 bit integers keep and reflect equality. *)
Theorem C130_conversions : forall {E : Env},
  (forall v w : Vector2d f32, v3_eq feq (@v3_of_v2 _ comp_f32 v) (@v3_of_v2 _ comp_f32 w) = v2_eq feq v w) /\
  (forall v w : Vector2d Z, (forall c, In c [v2x v; v2y v; v2x w; v2y w] -> -32768 <= c <= 65535) ->
     v2_eq feq (v2_into_f32 F32_from_int v) (v2_into_f32 F32_from_int w) = v2_eq Z.eqb v w) /\
  (forall v w : Vector3d Z, (forall c, In c [v3x v; v3y v; v3z v; v3x w; v3y w; v3z w] -> -32768 <= c <= 65535) ->
     v3_eq feq (v3_into_f32 F32_from_int v) (v3_into_f32 F32_from_int w) = v3_eq Z.eqb v w).
Proof. exact @conversions. Qed.
Print Assumptions C130_conversions.

(** Dividing by equal scalars can tell them apart: 1 / +0.0 and 1 / -0.0. *)
Theorem C130_refuted : forall {E : Env}, exists (v : Vector2d f32) k k' r r',
  feq k k' = true /\ @v2_div _ comp_f32 v k = Ok r /\ @v2_div _ comp_f32 v k' = Ok r' /\
  v = mkV2 F32_ONE F32_ONE /\ r = mkV2 F32_INFINITY F32_INFINITY /\ r' = mkV2 F32_NEG_INFINITY F32_NEG_INFINITY /\ v2_eq feq r r' = false.
Proof. exact @div_tells. Qed.
Print Assumptions C130_refuted.

(** Seven comparisons, and a sum of equal vectors with different bits. *)
Example C130_case :
  let v := mkV2 (from_bits 0) (from_bits 0x40400000) in
  let w := mkV2 (from_bits 0x80000000) (from_bits 0x40400000) in
  (v2_eq feq v w, v2_eq feq v (mkV2 (from_bits 0) (from_bits 0x40400001)), v2_eq feq v (mkV2 (from_bits 0) (from_bits 0x7FC00000)),
   v2_eq Z.eqb (mkV2 3 (-4)) (mkV2 3 (-4)), v2_eq Z.eqb (mkV2 3 (-4)) (mkV2 (-4) 3),
   q_eq (mkQ F32_ONE F32_ZERO F32_ZERO F32_ZERO) (mkQ F32_ONE F32_ZERO (from_bits 0x80000000) F32_ZERO),
   v3_eq feq (mkV3 F32_ONE F32_ONE F32_INFINITY) (mkV3 F32_ONE F32_ONE F32_INFINITY)) = (true, false, false, true, false, true, true) /\
  match @v2_add _ (@comp_f32 env_debug) v w, @v2_add _ (@comp_f32 env_debug) w w with
  | Ok a, Ok b => (map to_bits (v2_to_array a), map to_bits (v2_to_array b), v2_eq feq a b)
  | _, _ => ([], [], false)
  end = ([0; 1086324736], [2147483648; 1086324736], true).
Proof. vm_compute. split; reflexivity. Qed.
