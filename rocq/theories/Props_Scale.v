(** * Property C117: scaling by powers of two *)

From Coq Require Import ZArith Reals Bool List Lia Lra.
From Flocq Require Import Core IEEE754.Binary IEEE754.Bits.
From Verif Require Import Base Spec SpecMore Float Vector Quaternion Stats TestEnv F32Lemmas BitLemmas Literals P_RoundEdge P_Vector P_SumSq P_VecF32
  P_Quat P_Scale P_Scale2 P_Scale3 P_Scale4.
Import ListNotations.
Open Scope Z_scope.

(** ** C117 *)

(** Scaling the argument by 4^k scales the square root by exactly 2^k. *)
Theorem C117_sqrt : forall {E : Env} k x y, normal_pos x -> normal_pos y -> scaled (2 * k) x y ->
  exists a b, F32_sqrt x = Ok a /\ F32_sqrt y = Ok b /\ normal_pos a /\ normal_pos b /\ scaled k a b.
Proof. exact @sqrt_scaled. Qed.
Print Assumptions C117_sqrt.

Theorem C117_invsqrt : forall {E : Env} k x y, normal_pos x -> normal_pos y -> scaled (2 * k) x y ->
  exists a b, F32_invsqrt x = Ok a /\ F32_invsqrt y = Ok b /\ normal_pos a /\ normal_pos b /\ scaled (- k) a b.
Proof. exact @invsqrt_scaled. Qed.
Print Assumptions C117_invsqrt.

(** Scaling the argument by 2^k scales the reciprocals by exactly 2^-k. *)
Theorem C117_inv : forall {E : Env} k x y, normal_pos x -> normal_pos y -> (val x <= bpow radix2 126)%R -> (val y <= bpow radix2 126)%R ->
  scaled k x y -> normal_pos (F32_inv x) /\ normal_pos (F32_inv y) /\ scaled (- k) (F32_inv x) (F32_inv y).
Proof. exact @inv_scaled. Qed.
Print Assumptions C117_inv.

Theorem C117_recip : forall {E : Env} k x y,
  (bpow radix2 (-126) <= Rabs (val x) <= bpow radix2 125)%R -> (bpow radix2 (-126) <= Rabs (val y) <= bpow radix2 125)%R ->
  scaled k x y -> scaled (- k) (F32_recip x) (F32_recip y).
Proof. exact @recip_scaled. Qed.
Print Assumptions C117_recip.

(** Scaling both components scales the length. *)
Theorem C117_hypot : forall {E : Env} k a a' b b', scaled k a a' -> scaled k b b' ->
  sq_ok a -> sq_ok b -> sq_ok a' -> sq_ok b' -> (val a <> 0 \/ val b <> 0)%R ->
  exists r r', F32_hypot a b = Ok r /\ F32_hypot a' b' = Ok r' /\ normal_pos r /\ normal_pos r' /\ scaled k r r'.
Proof. exact @hypot_scaled. Qed.
Print Assumptions C117_hypot.

Theorem C117_magnitude_2d : forall {E : Env} k (v w : Vector2d f32),
  Forall2 (scaled k) (v2_to_array v) (v2_to_array w) -> Forall sq_ok (v2_to_array v) -> Forall sq_ok (v2_to_array w) ->
  (0 < rsumsq (v2_to_array v) <= bpow radix2 126)%R -> (0 < rsumsq (v2_to_array w) <= bpow radix2 126)%R ->
  exists a b, vt_magnitude idf v = Ok a /\ vt_magnitude idf w = Ok b /\ normal_pos a /\ normal_pos b /\ scaled k a b.
Proof. exact @v2_magnitude_scaled. Qed.
Print Assumptions C117_magnitude_2d.

Theorem C117_magnitude_3d : forall {E : Env} k (v w : Vector3d f32),
  Forall2 (scaled k) (v3_to_array v) (v3_to_array w) -> Forall sq_ok (v3_to_array v) -> Forall sq_ok (v3_to_array w) ->
  (0 < rsumsq (v3_to_array v) <= bpow radix2 126)%R -> (0 < rsumsq (v3_to_array w) <= bpow radix2 126)%R ->
  exists a b, vt_magnitude idf v = Ok a /\ vt_magnitude idf w = Ok b /\ normal_pos a /\ normal_pos b /\ scaled k a b.
Proof. exact @v3_magnitude_scaled. Qed.
Print Assumptions C117_magnitude_3d.

(** The normalised vector does not change at all. *)
Theorem C117_normalized_2d : forall {E : Env} k (v w : Vector2d f32),
  Forall2 (scaled k) (v2_to_array v) (v2_to_array w) -> Forall sq_ok (v2_to_array v) -> Forall sq_ok (v2_to_array w) ->
  (0 < rsumsq (v2_to_array v) <= bpow radix2 126)%R -> (0 < rsumsq (v2_to_array w) <= bpow radix2 126)%R ->
  exists u, vt_normalized idf idf v = Ok u /\ vt_normalized idf idf w = Ok u.
Proof. exact @v2_normalized_scaled. Qed.
Print Assumptions C117_normalized_2d.

Theorem C117_normalized_3d : forall {E : Env} k (v w : Vector3d f32),
  Forall2 (scaled k) (v3_to_array v) (v3_to_array w) -> Forall sq_ok (v3_to_array v) -> Forall sq_ok (v3_to_array w) ->
  (0 < rsumsq (v3_to_array v) <= bpow radix2 126)%R -> (0 < rsumsq (v3_to_array w) <= bpow radix2 126)%R ->
  exists u, vt_normalized idf idf v = Ok u /\ vt_normalized idf idf w = Ok u.
Proof. exact @v3_normalized_scaled. Qed.
Print Assumptions C117_normalized_3d.

(** Quaternions: squared norm, magnitude, normalisation, inverse. *)
Theorem C117_quaternion_norm : forall {E : Env} k q r, Forall2 (scaled k) (q_list q) (q_list r) ->
  Forall sq_ok (q_list q) -> Forall sq_ok (q_list r) ->
  (rsumsq (q_list q) <= bpow radix2 126)%R -> (rsumsq (q_list r) <= bpow radix2 126)%R ->
  scaled (2 * k) (@q_norm _ arith_f32 q) (@q_norm _ arith_f32 r).
Proof. exact @quat_norm_scaled. Qed.
Print Assumptions C117_quaternion_norm.

Theorem C117_quaternion_magnitude : forall {E : Env} k q r, Forall2 (scaled k) (q_list q) (q_list r) ->
  Forall sq_ok (q_list q) -> Forall sq_ok (q_list r) ->
  (0 < rsumsq (q_list q) <= bpow radix2 126)%R -> (0 < rsumsq (q_list r) <= bpow radix2 126)%R ->
  exists a b, Q_magnitude q = Ok a /\ Q_magnitude r = Ok b /\ normal_pos a /\ normal_pos b /\ scaled k a b.
Proof. exact @quat_magnitude_scaled. Qed.
Print Assumptions C117_quaternion_magnitude.

Theorem C117_quaternion_normalize : forall {E : Env} k q r, Forall2 (scaled k) (q_list q) (q_list r) ->
  Forall sq_ok (q_list q) -> Forall sq_ok (q_list r) ->
  (0 < rsumsq (q_list q) <= bpow radix2 126)%R -> (0 < rsumsq (q_list r) <= bpow radix2 126)%R ->
  exists u, Q_normalize q = Ok u /\ Q_normalize r = Ok u.
Proof. exact @quat_normalize_scaled. Qed.
Print Assumptions C117_quaternion_normalize.

Theorem C117_quaternion_inverse : forall {E : Env} k q r, Forall2 (scaled k) (q_list q) (q_list r) ->
  Forall (within 30) (q_list q) -> Forall (within 30) (q_list r) -> (0 < rsumsq (q_list q))%R ->
  exists u v, Q_inv q = Ok u /\ Q_inv r = Ok v /\ Forall2 (scaled (- k)) (q_list u) (q_list v).
Proof. exact @quat_inv_scaled. Qed.
Print Assumptions C117_quaternion_inverse.

(** The angle of a point does not change when both coordinates are scaled. *)
Theorem C117_atan2 : forall {E : Env} k y x y' x', scaled k y y' -> scaled k x x' ->
  within 61 y -> within 61 x -> within 61 y' -> within 61 x' -> F32_atan2 y' x' = F32_atan2 y x.
Proof. exact @atan2_scaled. Qed.
Print Assumptions C117_atan2.

(** Scaling every sample scales mean and standard deviation by 2^k, the
    variance by 4^k, and leaves the choice made by trim_at unchanged. *)
Theorem C117_statistics : forall {E : Env} {T} (into into' : T -> f32) k l, 2 <= Z.of_nat (length l) <= 2 ^ 16 ->
  Forall (fun x => within 16 (into x) /\ within 16 (into' x) /\ scaled k (into x) (into' x)) l ->
  exists m m' v v',
    mean (map into l) = Ok m /\ mean (map into' l) = Ok m' /\ scaled k m m' /\
    variance into l = Ok v /\ variance into' l = Ok v' /\ scaled (2 * k) v v' /\
    ((0 < val v)%R -> exists s s', stddev into l = Ok s /\ stddev into' l = Ok s' /\ scaled k s s' /\
       forall t, trim_at into' l t = trim_at into l t).
Proof. exact @stats_scaled. Qed.
Print Assumptions C117_statistics.

(** "Scaling the samples scales the standard deviation" fails for variance 0:
    sqrt(+0) is 1.5 * 2^-64 whatever the scale. *)
Theorem C117_stddev_zero_variance_refuted : forall {E : Env}, exists x y s,
  fin x /\ fin y /\ val y = (2 * val x)%R /\ (0 < val x)%R /\
  stddev (fun a => a) [x; x] = Ok s /\ stddev (fun a => a) [y; y] = Ok s /\ fin s /\ (0 < val s)%R.
Proof. exact @stddev_zero_scale. Qed.
Print Assumptions C117_stddev_zero_variance_refuted.

(** sqrt 3 and sqrt 12; recip 3 and recip 24; hypot (3, 4) and (24, 32);
    atan2 (3, -4) and (24, -32): exponents 1, -3, 3 and 0 apart. *)
Example C117_case :
  @F32_sqrt env_debug (f32_of_Z 3) = Ok (from_bits 1071644672) /\ @F32_sqrt env_debug (f32_of_Z 12) = Ok (from_bits (1071644672 + 1 * 2 ^ 23)) /\
  to_bits (@F32_recip env_debug (f32_of_Z 3)) = 1051372175 /\ to_bits (@F32_recip env_debug (f32_of_Z 24)) = 1051372175 - 3 * 2 ^ 23 /\
  @F32_hypot env_debug (f32_of_Z 3) (f32_of_Z 4) = Ok (from_bits 1084489728) /\
  @F32_hypot env_debug (f32_of_Z 24) (f32_of_Z 32) = Ok (from_bits (1084489728 + 3 * 2 ^ 23)) /\
  to_bits (@F32_atan2 env_debug (f32_of_Z 3) (f32_of_Z (-4))) = 1075822425 /\
  to_bits (@F32_atan2 env_debug (f32_of_Z 24) (f32_of_Z (-32))) = 1075822425.
Proof. repeat split; try (apply ok_bits); vm_compute; reflexivity. Qed.

(** Samples 1, 2, 3, 2, 50 and four times as much: mean + 2, variance + 4,
    stddev + 2 exponents; trim_at(1) drops the outlier in both. *)
Example C117_statistics_case :
  @mean env_debug (map f32_of_Z [1; 2; 3; 2; 50]) = Ok (from_bits 1094293914) /\
  @mean env_debug (map f32_of_Z [4; 8; 12; 8; 200]) = Ok (from_bits (1094293914 + 2 * 2 ^ 23)) /\
  @variance env_debug Z f32_of_Z [1; 2; 3; 2; 50] = Ok (from_bits 1139189351) /\
  @variance env_debug Z f32_of_Z [4; 8; 12; 8; 200] = Ok (from_bits (1139189351 + 4 * 2 ^ 23)) /\
  @stddev env_debug Z f32_of_Z [1; 2; 3; 2; 50] = Ok (from_bits 1102271283) /\
  @stddev env_debug Z f32_of_Z [4; 8; 12; 8; 200] = Ok (from_bits (1102271283 + 2 * 2 ^ 23)) /\
  @trim_at env_debug Z f32_of_Z [1; 2; 3; 2; 50] F32_ONE = Ok [1; 2; 3; 2] /\
  @trim_at env_debug Z f32_of_Z [4; 8; 12; 8; 200] F32_ONE = Ok [4; 8; 12; 8].
Proof. repeat split; try (apply ok_bits); vm_compute; reflexivity. Qed.
