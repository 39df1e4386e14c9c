(** * Property C122: f32 inner products and norms, Cauchy-Schwarz, triangle inequality *)

From Coq Require Import ZArith Reals Bool List Lia Lra.
From Flocq Require Import Core IEEE754.Binary IEEE754.Bits.
From Verif Require Import Base Spec SpecVec Float Vector TestEnv F32Lemmas BitLemmas Literals P_RoundEdge P_Dot.
Import ListNotations.
Open Scope Z_scope.

(** ** C122 *)

(** Three roundings per product term at most, and an underflow term. *)
Theorem C122_dot_2 : forall {E : Env} (v w : Vector2d f32), Forall fin (v2_to_array v) -> Forall fin (v2_to_array w) ->
  (Rabs (val (v2x v) * val (v2x w)) + Rabs (val (v2y v) * val (v2y w)) <= bpow radix2 126)%R ->
  exists d, v2_dot (H := comp_f32) v w = Ok d /\ fin d /\
    (Rabs (val d - (val (v2x v) * val (v2x w) + val (v2y v) * val (v2y w))) <=
     (2 * bpow radix2 (-24) + bpow radix2 (-46)) * (Rabs (val (v2x v) * val (v2x w)) + Rabs (val (v2y v) * val (v2y w))) + bpow radix2 (-148))%R.
Proof. exact @v2_dot_acc. Qed.
Print Assumptions C122_dot_2.

Theorem C122_dot_3 : forall {E : Env} (v w : Vector3d f32), Forall fin (v3_to_array v) -> Forall fin (v3_to_array w) ->
  (Rabs (val (v3x v) * val (v3x w)) + Rabs (val (v3y v) * val (v3y w)) + Rabs (val (v3z v) * val (v3z w)) <= bpow radix2 126)%R ->
  exists d, v3_dot (H := comp_f32) v w = Ok d /\ fin d /\
    (Rabs (val d - (val (v3x v) * val (v3x w) + val (v3y v) * val (v3y w) + val (v3z v) * val (v3z w))) <=
     (3 * bpow radix2 (-24) + bpow radix2 (-46)) * (Rabs (val (v3x v) * val (v3x w)) + Rabs (val (v3y v) * val (v3y w)) + Rabs (val (v3z v) * val (v3z w))) + bpow radix2 (-148))%R.
Proof. exact @v3_dot_acc. Qed.
Print Assumptions C122_dot_3.

Theorem C122_perpendicular_dot : forall {E : Env} (v w : Vector2d f32), Forall fin (v2_to_array v) -> Forall fin (v2_to_array w) ->
  (Rabs (val (v2x v) * val (v2y w)) + Rabs (val (v2y v) * val (v2x w)) <= bpow radix2 126)%R ->
  exists d, v2_perpendicular_dot (H := comp_f32) v w = Ok d /\ fin d /\
    (Rabs (val d - (val (v2x v) * val (v2y w) - val (v2y v) * val (v2x w))) <=
     (2 * bpow radix2 (-24) + bpow radix2 (-46)) * (Rabs (val (v2x v) * val (v2y w)) + Rabs (val (v2y v) * val (v2x w))) + bpow radix2 (-148))%R.
Proof. exact @v2_perp_acc. Qed.
Print Assumptions C122_perpendicular_dot.

(** Exact identities between the methods, for all floats. *)
Theorem C122_magnitude_is_sqrt_dot_2 : forall {E : Env} (v : Vector2d f32), vt_magnitude (fun x => x) v = (d <- v2_dot (H := comp_f32) v v ;; F32_sqrt d).
Proof. exact @v2_magnitude_dot. Qed.
Print Assumptions C122_magnitude_is_sqrt_dot_2.

Theorem C122_magnitude_is_sqrt_dot_3 : forall {E : Env} (v : Vector3d f32), vt_magnitude (fun x => x) v = (d <- v3_dot (H := comp_f32) v v ;; F32_sqrt d).
Proof. exact @v3_magnitude_dot. Qed.
Print Assumptions C122_magnitude_is_sqrt_dot_3.

Theorem C122_distance_is_magnitude_2 : forall {E : Env} (v w : Vector2d f32), vt_distance (fun x => x) v w = (d <- v2_sub (H := comp_f32) v w ;; vt_magnitude (fun x => x) d).
Proof. exact @v2_distance_sub. Qed.
Print Assumptions C122_distance_is_magnitude_2.

Theorem C122_distance_is_magnitude_3 : forall {E : Env} (v w : Vector3d f32), vt_distance (fun x => x) v w = (d <- v3_sub (H := comp_f32) v w ;; vt_magnitude (fun x => x) d).
Proof. exact @v3_distance_sub. Qed.
Print Assumptions C122_distance_is_magnitude_3.

Theorem C122_hypot_is_magnitude : forall {E : Env} x y, F32_hypot x y = vt_magnitude (fun x => x) (mkV2 x y).
Proof. exact @hypot_magnitude. Qed.
Print Assumptions C122_hypot_is_magnitude.

(** All vectors with components up to 2^61, tiny ones and zero included: the
    magnitude is never below the norm by more than 2^-20 of it, and above it by
    at most 6.067 percent or between 1.5 * 2^-64 and 2^-63. *)
Theorem C122_magnitude_2 : forall {E : Env} (v : Vector2d f32), Forall (within 61) (v2_to_array v) ->
  exists m, vt_magnitude (fun x => x) v = Ok m /\ fin m /\ ((1 - bpow radix2 (-20)) * rnorm (v2_to_array v) <= val m)%R /\ (val m <= 1.06067 * rnorm (v2_to_array v) \/ 3 * bpow radix2 (-65) <= val m <= 4 * bpow radix2 (-65))%R.
Proof. exact @v2_magnitude_bounds. Qed.
Print Assumptions C122_magnitude_2.

Theorem C122_magnitude_3 : forall {E : Env} (v : Vector3d f32), Forall (within 61) (v3_to_array v) ->
  exists m, vt_magnitude (fun x => x) v = Ok m /\ fin m /\ ((1 - bpow radix2 (-20)) * rnorm (v3_to_array v) <= val m)%R /\ (val m <= 1.06067 * rnorm (v3_to_array v) \/ 3 * bpow radix2 (-65) <= val m <= 4 * bpow radix2 (-65))%R.
Proof. exact @v3_magnitude_bounds. Qed.
Print Assumptions C122_magnitude_3.

(** |u . v| <= |u| |v| for the computed values, no underflow term. *)
Theorem C122_cauchy_schwarz_2 : forall {E : Env} (v w : Vector2d f32), Forall (within 61) (v2_to_array v) -> Forall (within 61) (v2_to_array w) ->
  exists d m n, v2_dot (H := comp_f32) v w = Ok d /\ vt_magnitude (fun x => x) v = Ok m /\ vt_magnitude (fun x => x) w = Ok n /\
    fin d /\ fin m /\ fin n /\ (Rabs (val d) <= (1 + bpow radix2 (-18)) * (val m * val n))%R.
Proof. exact @v2_cauchy. Qed.
Print Assumptions C122_cauchy_schwarz_2.

Theorem C122_cauchy_schwarz_3 : forall {E : Env} (v w : Vector3d f32), Forall (within 61) (v3_to_array v) -> Forall (within 61) (v3_to_array w) ->
  exists d m n, v3_dot (H := comp_f32) v w = Ok d /\ vt_magnitude (fun x => x) v = Ok m /\ vt_magnitude (fun x => x) w = Ok n /\
    fin d /\ fin m /\ fin n /\ (Rabs (val d) <= (1 + bpow radix2 (-18)) * (val m * val n))%R.
Proof. exact @v3_cauchy. Qed.
Print Assumptions C122_cauchy_schwarz_3.

(** The triangle inequality, up to the error of sqrt. *)
Theorem C122_triangle_2 : forall {E : Env} (u v w : Vector2d f32), Forall (within 61) (v2_to_array u) -> Forall (within 61) (v2_to_array v) -> Forall (within 61) (v2_to_array w) ->
  exists a b c, vt_distance (fun x => x) u w = Ok a /\ vt_distance (fun x => x) u v = Ok b /\ vt_distance (fun x => x) v w = Ok c /\
    fin a /\ fin b /\ fin c /\ (val a <= 1.0607 * (val b + val c))%R.
Proof. exact @v2_triangle. Qed.
Print Assumptions C122_triangle_2.

Theorem C122_triangle_3 : forall {E : Env} (u v w : Vector3d f32), Forall (within 61) (v3_to_array u) -> Forall (within 61) (v3_to_array v) -> Forall (within 61) (v3_to_array w) ->
  exists a b c, vt_distance (fun x => x) u w = Ok a /\ vt_distance (fun x => x) u v = Ok b /\ vt_distance (fun x => x) v w = Ok c /\
    fin a /\ fin b /\ fin c /\ (val a <= 1.0607 * (val b + val c))%R.
Proof. exact @v3_triangle. Qed.
Print Assumptions C122_triangle_3.

Theorem C122_sum_2 : forall {E : Env} (v w : Vector2d f32), Forall (within 61) (v2_to_array v) -> Forall (within 61) (v2_to_array w) ->
  exists s a b c, v2_add (H := comp_f32) v w = Ok s /\ vt_magnitude (fun x => x) s = Ok a /\ vt_magnitude (fun x => x) v = Ok b /\ vt_magnitude (fun x => x) w = Ok c /\
    fin a /\ fin b /\ fin c /\ (val a <= 1.0607 * (val b + val c))%R.
Proof. exact @v2_sum_magnitude. Qed.
Print Assumptions C122_sum_2.

Theorem C122_sum_3 : forall {E : Env} (v w : Vector3d f32), Forall (within 61) (v3_to_array v) -> Forall (within 61) (v3_to_array w) ->
  exists s a b c, v3_add (H := comp_f32) v w = Ok s /\ vt_magnitude (fun x => x) s = Ok a /\ vt_magnitude (fun x => x) v = Ok b /\ vt_magnitude (fun x => x) w = Ok c /\
    fin a /\ fin b /\ fin c /\ (val a <= 1.0607 * (val b + val c))%R.
Proof. exact @v3_sum_magnitude. Qed.
Print Assumptions C122_sum_3.

(** The factor is needed: from 0 to (4096, 4096) the direct distance is 5.88
    percent above the sum of the distances through (1365, 1365). *)
Theorem C122_triangle_refuted : forall {E : Env}, exists (u v w : Vector2d f32) (a b c : f32),
  Forall (within 61) (v2_to_array u) /\ Forall (within 61) (v2_to_array v) /\ Forall (within 61) (v2_to_array w) /\ vt_distance (fun x => x) u w = Ok a /\ vt_distance (fun x => x) u v = Ok b /\ vt_distance (fun x => x) v w = Ok c /\ (1.0588 * (val b + val c) < val a)%R.
Proof. exact @triangle_broken. Qed.
Print Assumptions C122_triangle_refuted.

(** Normalized vectors are not longer than 1 + 1.5 * 2^-20. *)
Theorem C122_normalized_2 : forall {E : Env} (v : Vector2d f32), Forall (within 61) (v2_to_array v) ->
  exists w, vt_normalized (fun x => x) (fun x => x) v = Ok w /\ Forall fin (v2_to_array w) /\ (rnorm (v2_to_array w) <= 1 + 3 / 2 * bpow radix2 (-20))%R.
Proof. exact @v2_normalized_le. Qed.
Print Assumptions C122_normalized_2.

Theorem C122_normalized_3 : forall {E : Env} (v : Vector3d f32), Forall (within 61) (v3_to_array v) ->
  exists w, vt_normalized (fun x => x) (fun x => x) v = Ok w /\ Forall fin (v3_to_array w) /\ (rnorm (v3_to_array w) <= 1 + 3 / 2 * bpow radix2 (-20))%R.
Proof. exact @v3_normalized_le. Qed.
Print Assumptions C122_normalized_3.

(** The cosine of an angle, computed from normalized vectors. *)
Theorem C122_cosine_2 : forall {E : Env} (v w : Vector2d f32), Forall (within 61) (v2_to_array v) -> Forall (within 61) (v2_to_array w) ->
  exists a b d, vt_normalized (fun x => x) (fun x => x) v = Ok a /\ vt_normalized (fun x => x) (fun x => x) w = Ok b /\
    v2_dot (H := comp_f32) a b = Ok d /\ fin d /\ (Rabs (val d) <= 1 + bpow radix2 (-18))%R.
Proof. exact @v2_cosine. Qed.
Print Assumptions C122_cosine_2.

Theorem C122_cosine_3 : forall {E : Env} (v w : Vector3d f32), Forall (within 61) (v3_to_array v) -> Forall (within 61) (v3_to_array w) ->
  exists a b d, vt_normalized (fun x => x) (fun x => x) v = Ok a /\ vt_normalized (fun x => x) (fun x => x) w = Ok b /\
    v3_dot (H := comp_f32) a b = Ok d /\ fin d /\ (Rabs (val d) <= 1 + bpow radix2 (-18))%R.
Proof. exact @v3_cosine. Qed.
Print Assumptions C122_cosine_3.

(** It can exceed 1: (0.2, 8) with itself; acos of it is NaN. *)
Theorem C122_cosine_refuted : forall {E : Env}, exists v a d r, Forall (within 61) (v2_to_array v) /\ vt_normalized (fun x => x) (fun x => x) v = Ok a /\
  v2_dot (H := comp_f32) a a = Ok d /\ fin d /\ (1 < val d)%R /\ F32_acos d = Ok r /\ nan r.
Proof. exact @cosine_above_one. Qed.
Print Assumptions C122_cosine_refuted.

(** (3, 2, 6) . (-4, 2, 6) = 28; magnitudes 7 (computed 7.0625) and 7.4833 (computed 7.5);
    distance 7 (computed 7.0625). *)
Example C122_case :
  let v := fun k => mkV3 (f32_of_Z k) (f32_of_Z 2) (f32_of_Z 6) in let b := fun r => match r with Ok d => to_bits d | _ => -1 end in
  b (@v3_dot _ (@comp_f32 env_debug) (v 3) (v (-4))) = to_bits (f32_of_Z 28) /\
  b (@vt_magnitude env_debug _ _ _ (fun x => x) (v 3)) = 1088552960 /\
  b (@vt_magnitude env_debug _ _ _ (fun x => x) (v (-4))) = 1089470464 /\
  b (@vt_distance env_debug _ _ _ (fun x => x) (v 3) (v (-4))) = 1088552960.
Proof. vm_compute. repeat split. Qed.

(** 3 * 11 - 5 * 7 = -2. *)
Example C122_perpendicular_case :
  @v2_perpendicular_dot _ (@comp_f32 env_debug) (mkV2 (f32_of_Z 3) (f32_of_Z 5)) (mkV2 (f32_of_Z 7) (f32_of_Z 11)) = Ok (f32_of_Z (-2)).
Proof. apply (f_equal Ok). apply to_bits_inj. vm_compute. reflexivity. Qed.
