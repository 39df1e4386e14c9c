(** * Properties C74-C80, C83, C84: quaternions *)

From Coq Require Import ZArith Reals Bool List Lia Lra.
From Flocq Require Import Core IEEE754.Binary IEEE754.Bits.
From Verif Require Import Base Spec Float Vector Quaternion TestEnv F32Lemmas BitLemmas P_Trunc P_Floor Literals ErrLemmas
  P_RoundEdge NanLemmas P_Euclid P_Roots P_InvSqrt P_Recip P_Vector P_VecInt P_SumSq P_VecF32 P_Stats QuatReal P_Quat P_Quat2.
Import ListNotations.
Open Scope Z_scope.

(** ** C74 *)

Theorem C74_tuple_roundtrip : forall {A} (q : Quat A) (t : A * A * A * A),
  q_of_tuple (q_to_tuple q) = q /\ q_to_tuple (q_of_tuple t) = t.
Proof. intros A [a b c d] [[[e f] g] h]. split; reflexivity. Qed.
Print Assumptions C74_tuple_roundtrip.

Theorem C74_array_roundtrip : forall {A} (a b c d : A),
  q_to_array (q_of_array a b c d) = [a; b; c; d] /\ q_of_array a b c d = q_new a b c d /\
  q0 (q_new a b c d) = a /\ q1 (q_new a b c d) = b /\ q2 (q_new a b c d) = c /\ q3 (q_new a b c d) = d.
Proof. intros. repeat split. Qed.
Print Assumptions C74_array_roundtrip.

Theorem C74_from_vector : forall {E : Env} (v : Vector3d f32),
  q_to_array (@q_of_vector _ arith_f32 v) = [f32_zero false; v3x v; v3y v; v3z v].
Proof. reflexivity. Qed.
Print Assumptions C74_from_vector.

Example C74_case : q_to_tuple (q_of_array 1 2 3 4) = (1, 2, 3, 4).
Proof. reflexivity. Qed.

(** ** C75 *)

Theorem C75_units : Rq_mul Rq_i Rq_i = Rq_scale Rq_one (-1) /\ Rq_mul Rq_j Rq_j = Rq_scale Rq_one (-1) /\
  Rq_mul Rq_k Rq_k = Rq_scale Rq_one (-1) /\
  Rq_mul Rq_i Rq_j = Rq_k /\ Rq_mul Rq_j Rq_i = Rq_scale Rq_k (-1) /\
  Rq_mul Rq_j Rq_k = Rq_i /\ Rq_mul Rq_k Rq_j = Rq_scale Rq_i (-1) /\
  Rq_mul Rq_k Rq_i = Rq_j /\ Rq_mul Rq_i Rq_k = Rq_scale Rq_j (-1).
Proof. exact Rq_table. Qed.
Print Assumptions C75_units.

Theorem C75_associative : forall p q r, Rq_mul (Rq_mul p q) r = Rq_mul p (Rq_mul q r).
Proof. exact Rq_mul_assoc. Qed.
Print Assumptions C75_associative.

Theorem C75_bilinear : forall p q r k,
  Rq_mul p (Rq_add q r) = Rq_add (Rq_mul p q) (Rq_mul p r) /\
  Rq_mul (Rq_add q r) p = Rq_add (Rq_mul q p) (Rq_mul r p) /\
  Rq_mul (Rq_scale p k) q = Rq_scale (Rq_mul p q) k /\ Rq_mul p (Rq_scale q k) = Rq_scale (Rq_mul p q) k.
Proof. intros. destruct (Rq_mul_add p q r). destruct (Rq_mul_scale p q k). repeat split; assumption. Qed.
Print Assumptions C75_bilinear.

Theorem C75_norm_multiplicative : forall p q, Rq_norm (Rq_mul p q) = (Rq_norm p * Rq_norm q)%R.
Proof. exact Rq_norm_mul. Qed.
Print Assumptions C75_norm_multiplicative.

(** The f32 product, componentwise, for components up to [P] and [Q]. *)
Theorem C75_mul_rounding : forall {E : Env} p q P Q, quat_le p P -> quat_le q Q -> (P * Q <= bpow radix2 120)%R ->
  let r := @q_mul _ arith_f32 p q in let s := Rq_mul (Q_R p) (Q_R q) in
  let e := (14 * bpow radix2 (-24) * (P * Q) + bpow radix2 (-147))%R in
  near e (q0 r) (q0 s) /\ near e (q1 r) (q1 s) /\ near e (q2 r) (q2 s) /\ near e (q3 r) (q3 s).
Proof. exact @mul_error. Qed.
Print Assumptions C75_mul_rounding.

(** (1 + 2i + 3j + 4k)(5 + 6i + 7j + 8k) = -60 + 12i + 30j + 24k. *)
Example C75_case : let p := mkQ (f32_of_Z 1) (f32_of_Z 2) (f32_of_Z 3) (f32_of_Z 4) in
  let q := mkQ (f32_of_Z 5) (f32_of_Z 6) (f32_of_Z 7) (f32_of_Z 8) in
  map to_bits (q_to_array (@q_mul _ (@arith_f32 env_debug) p q)) =
  map to_bits [f32_of_Z (-60); f32_of_Z 12; f32_of_Z 30; f32_of_Z 24] /\ quat_le p 8 /\ quat_le q 8.
Proof.
  intros p q. split; [vm_compute; reflexivity|].
  assert (G : forall n, 0 <= n <= 8 -> fin (f32_of_Z n) /\ (Rabs (val (f32_of_Z n)) <= 8)%R).
  { intros n H. destruct (f32_of_Z_exact n ltac:(lia)) as [A B]. split; [exact A|].
    rewrite B, <- abs_IZR. apply IZR_le. lia. }
  split; (split; [repeat split|]; repeat split; apply G; lia).
Qed.

(** ** C76 *)

Theorem C76_identity_neutral : forall {E : Env} q, fin_quat q ->
  feq_quat (@q_mul _ arith_f32 (@q_identity _ arith_f32) q) q /\
  feq_quat (@q_mul _ arith_f32 q (@q_identity _ arith_f32)) q.
Proof. exact @identity_neutral. Qed.
Print Assumptions C76_identity_neutral.

(** Finiteness is needed: with an infinite component the product has NaN. *)
Theorem C76_identity_infinite_refuted : forall {E : Env}, exists q,
  q0 q = f32_inf false /\ nan (q1 (@q_mul _ arith_f32 (@q_identity _ arith_f32) q)).
Proof.
  intros E. exists (mkQ (f32_inf false) F32_ONE F32_ONE F32_ONE). split; [reflexivity|].
  unfold q_mul, q_identity. cbn [q0 q1 q2 q3 a0 a1 aadd asub amul arith_f32].
  apply fsub_nan. left. apply fadd_nan. left. apply fadd_nan. right. apply zero_mul_inf.
Qed.
Print Assumptions C76_identity_infinite_refuted.

Example C76_case : let q := mkQ (f32_of_Z 5) (fneg (f32_of_Z 6)) (f32_of_Z 7) (f32_zero true) in fin_quat q /\
  map to_bits (q_to_array (@q_mul _ (@arith_f32 env_debug) (@q_identity _ (@arith_f32 env_debug)) q)) =
  [0x40A00000; 0xC0C00000; 0x40E00000; 0].
Proof. split; [repeat split|vm_compute; reflexivity]. Qed.

(** ** C77 *)

Theorem C77_conj_involutive : forall {E : Env} q, @q_conj _ arith_f32 (@q_conj _ arith_f32 q) = q.
Proof. exact @conj_conj. Qed.
Print Assumptions C77_conj_involutive.

Theorem C77_norm_conj : forall {E : Env} q, same (@q_norm _ arith_f32 (@q_conj _ arith_f32 q)) (@q_norm _ arith_f32 q).
Proof. exact @norm_conj. Qed.
Print Assumptions C77_norm_conj.

Theorem C77_mul_conj_real : forall {E : Env} q,
  same (q0 (@q_mul _ arith_f32 q (@q_conj _ arith_f32 q))) (@q_norm _ arith_f32 q).
Proof. exact @mul_conj_real. Qed.
Print Assumptions C77_mul_conj_real.

Theorem C77_conj_real : forall p q, Rq_conj (Rq_mul p q) = Rq_mul (Rq_conj q) (Rq_conj p) /\
  Rq_mul q (Rq_conj q) = Rq_scale Rq_one (Rq_norm q) /\ Rq_mul (Rq_conj q) q = Rq_scale Rq_one (Rq_norm q).
Proof. intros p q. split; [apply Rq_conj_mul|apply Rq_mul_conj]. Qed.
Print Assumptions C77_conj_real.

Example C77_case : let q := mkQ (f32_of_Z 1) (f32_of_Z 2) (f32_of_Z 3) (f32_of_Z 4) in
  map to_bits (q_to_array (@q_mul _ (@arith_f32 env_debug) q (@q_conj _ (@arith_f32 env_debug) q))) =
  map to_bits [f32_of_Z 30; f32_zero false; f32_zero false; f32_zero false].
Proof. vm_compute. reflexivity. Qed.

(** ** C78 *)

Theorem C78_inv_panic : forall {E : Env} q, Q_inv q = Panic <-> feq (@q_norm _ arith_f32 q) F32_ZERO = true.
Proof. exact @inv_panic. Qed.
Print Assumptions C78_inv_panic.

(** A nonzero quaternion with a zero computed norm: 2^-80. *)
Theorem C78_inv_nonzero_panics : forall {E : Env}, exists q, fin_quat q /\ (0 < val (q0 q))%R /\ Q_inv q = Panic /\
  Q_normalize q = Panic.
Proof.
  intros E. exists (mkQ (from_bits 0x17800000) (f32_zero false) (f32_zero false) (f32_zero false)).
  split; [repeat split|]. split; [cbn [q0]; lit 0x17800000; pose proof (bpow_gt_0 radix2 (-103)); lra|].
  split; vm_compute; reflexivity.
Qed.
Print Assumptions C78_inv_nonzero_panics.

(** Each component is within 12.51% of the corresponding one of conj(q)/N. *)
Theorem C78_inv_accuracy : forall {E : Env} q, Forall sq_ok (q_list q) -> (0 < rsumsq (q_list q) <= bpow radix2 125)%R ->
  let N := rsumsq (q_list q) in
  exists r, Q_inv q = Ok r /\
    near (0.1251 * (Rabs (val (q0 q)) / N) + bpow radix2 (-150)) (q0 r) (val (q0 q) / N) /\
    near (0.1251 * (Rabs (val (q1 q)) / N) + bpow radix2 (-150)) (q1 r) (- val (q1 q) / N) /\
    near (0.1251 * (Rabs (val (q2 q)) / N) + bpow radix2 (-150)) (q2 r) (- val (q2 q) / N) /\
    near (0.1251 * (Rabs (val (q3 q)) / N) + bpow radix2 (-150)) (q3 r) (- val (q3 q) / N).
Proof. exact @inv_accuracy_q. Qed.
Print Assumptions C78_inv_accuracy.

Lemma sq_ok_int : forall n, 0 <= n <= 8 -> sq_ok (f32_of_Z n) /\ val (f32_of_Z n) = IZR n.
Proof.
  intros n H. destruct (f32_of_Z_exact n ltac:(lia)) as [A B]. split; [|exact B]. split; [exact A|]. rewrite B.
  destruct (Z.eq_dec n 0) as [->|Q]; [left; reflexivity|right]. rewrite <- mult_IZR. split.
  - apply Rle_trans with (bpow radix2 0); [apply bpow_le; lia|]. apply IZR_le. nia.
  - apply Rle_trans with (bpow radix2 6); [change (bpow radix2 6) with (IZR 64); apply IZR_le; nia|apply bpow_le; lia].
Qed.

(** inv(1 + 2i + 3j + 0k) = 0.0781 - 0.156i - 0.234j, where 1/14 = 0.0714. *)
Example C78_case : let q := mkQ (f32_of_Z 1) (f32_of_Z 2) (f32_of_Z 3) (f32_of_Z 0) in
  Forall sq_ok (q_list q) /\ (0 < rsumsq (q_list q) <= bpow radix2 125)%R /\
  @Q_inv env_debug q = Ok (mkQ (from_bits 0x3DA00000) (from_bits 0xBE200000) (from_bits 0xBE700000) (from_bits 0x80000000)).
Proof.
  intros q. split; [repeat apply Forall_cons; try apply Forall_nil; apply sq_ok_int; lia|]. split.
  - unfold q, q_list, rsumsq. cbn [q0 q1 q2 q3 fold_right]. rewrite !(fun n H => proj2 (sq_ok_int n H)) by lia.
    split; [lra|]. apply Rle_trans with (bpow radix2 4); [simpl; lra|apply bpow_le; lia].
  - apply okq_bits. vm_compute. reflexivity.
Qed.

(** ** C79 *)

Theorem C79_normalize : forall {E : Env} q, Forall sq_ok (q_list q) -> (0 < rsumsq (q_list q) <= bpow radix2 126)%R ->
  exists r, Q_normalize q = Ok r /\ Forall fin (q_list r) /\ (0.965 <= sqrt (rsumsq (q_list r)) <= 1.035)%R.
Proof. exact @normalize_accuracy. Qed.
Print Assumptions C79_normalize.

Theorem C79_magnitude : forall {E : Env} q, Forall sq_ok (q_list q) -> (0 < rsumsq (q_list q) <= bpow radix2 126)%R ->
  exists z, Q_magnitude q = Ok z /\ normal_pos z /\
    ((1 - bpow radix2 (-20)) * sqrt (rsumsq (q_list q)) <= val z <= 1.0607 * sqrt (rsumsq (q_list q)))%R.
Proof. exact @quat_magnitude_acc. Qed.
Print Assumptions C79_magnitude.

Theorem C79_zero_norm_panics : forall {E : Env} q, feq (@q_norm _ arith_f32 q) F32_ZERO = true -> Q_normalize q = Panic.
Proof. intros E q H. unfold Q_normalize. rewrite H. reflexivity. Qed.
Print Assumptions C79_zero_norm_panics.

Example C79_case : let q := mkQ (f32_of_Z 1) (f32_of_Z 2) (f32_of_Z 3) (f32_of_Z 0) in
  Forall sq_ok (q_list q) /\ (0 < rsumsq (q_list q) <= bpow radix2 126)%R /\
  @Q_normalize env_debug q = Ok (mkQ (from_bits 0x3E875A86) (from_bits 0x3F075A86) (from_bits 0x3F4B07C9) (from_bits 0)).
Proof.
  intros q. split; [repeat apply Forall_cons; try apply Forall_nil; apply sq_ok_int; lia|]. split.
  - unfold q, q_list, rsumsq. cbn [q0 q1 q2 q3 fold_right]. rewrite !(fun n H => proj2 (sq_ok_int n H)) by lia.
    split; [lra|]. apply Rle_trans with (bpow radix2 4); [simpl; lra|apply bpow_le; lia].
  - apply okq_bits. vm_compute. reflexivity.
Qed.

(** ** C80 *)

Theorem C80_rotate_conjugation : forall q v,
  Rq_mul (Rq_mul q (Rq_vec v)) (Rq_conj q) = Rq_vec (Rq_rotate q v).
Proof. exact Rq_rotate_is_conjugation. Qed.
Print Assumptions C80_rotate_conjugation.

Theorem C80_rotate_isometry : forall q u v, Rq_norm q = 1%R ->
  Rdot3 (Rq_rotate q u) (Rq_rotate q v) = Rdot3 u v /\
  Rcross (Rq_rotate q u) (Rq_rotate q v) = Rq_rotate q (Rcross u v).
Proof.
  intros q u v H. rewrite Rq_rotate_dot, Rq_rotate_cross, H. split; [ring|].
  destruct (Rq_rotate q (Rcross u v)) as [a b c]. unfold Rscale3. cbn [v3x v3y v3z]. f_equal; ring.
Qed.
Print Assumptions C80_rotate_isometry.

Theorem C80_rotate_composition : forall p q v, Rq_rotate (Rq_mul p q) v = Rq_rotate p (Rq_rotate q v).
Proof. exact Rq_rotate_mul. Qed.
Print Assumptions C80_rotate_composition.

Theorem C80_rotate_rounding : forall {E : Env} q v Q V, quat_le q Q -> vec_le v V ->
  (Q * Q <= bpow radix2 120)%R -> (V <= bpow radix2 120)%R -> (Q * Q * V <= bpow radix2 120)%R ->
  let r := Q_rotate idf q v in let s := Rq_rotate (Q_R q) (V3_R v) in
  let e := (80 * bpow radix2 (-24) * (Q * Q * V) + bpow radix2 (-145) * (V + 1))%R in
  near e (v3x r) (v3x s) /\ near e (v3y r) (v3y s) /\ near e (v3z r) (v3z s).
Proof.
  intros E q [x y z] Q V. exact (rotate_error q (mkV3 x y z) Q V).
Qed.
Print Assumptions C80_rotate_rounding.

(** k rotates (1, 2, 3) to (-1, -2, 3). *)
Example C80_case : let q := mkQ (f32_of_Z 0) (f32_of_Z 0) (f32_of_Z 0) (f32_of_Z 1) in
  let r := @Q_rotate env_debug Z f32_of_Z q (mkV3 1 2 3) in
  map to_bits [v3x r; v3y r; v3z r] = [0xBF800000; 0xC0000000; 0x40400000] /\ quat_le q 1.
Proof.
  intros q r. split; [vm_compute; reflexivity|].
  assert (G : forall n, 0 <= n <= 1 -> fin (f32_of_Z n) /\ (Rabs (val (f32_of_Z n)) <= 1)%R).
  { intros n H. destruct (f32_of_Z_exact n ltac:(lia)) as [A B]. split; [exact A|].
    rewrite B, <- abs_IZR. apply IZR_le. lia. }
  split; [repeat split|]; repeat split; apply G; lia.
Qed.

(** ** C83 *)

Theorem C83_from_two_total : forall {E : Env} u v, vec_le u (bpow radix2 29) -> vec_le v (bpow radix2 29) ->
  exists q, Q_from_two_vectors (H := comp_f32) idf u v = Ok q /\ fin_quat q /\ (0 <= val (q0 q))%R.
Proof. exact @from_two_total. Qed.
Print Assumptions C83_from_two_total.

(** The formula, over the reals and before normalization, turns [u] to the direction of [v]. *)
Theorem C83_between_rotates : forall n u v, (n * n = Rdot3 u u * Rdot3 v v)%R ->
  Rscale3 (Rdot3 v v) (Rq_rotate (Rq_between n u v) u) = Rscale3 (n * Rq_norm (Rq_between n u v)) v.
Proof. exact Rq_between_rotates. Qed.
Print Assumptions C83_between_rotates.

(** When the real part is below 1e-6 n_uv the axis is orthogonal to [u] (half turn). *)
Theorem C83_antiparallel_branch : forall {E : Env} u v n q,
  F32_sqrt (fmul (dot3 u u) (dot3 v v)) = Ok n -> flt (fadd n (dot3 u v)) (fmul c_1em6 n) = true ->
  Q_from_two_vectors (H := comp_f32) idf u v = Ok q ->
  exists w k, q = @q_scale _ arith_f32 (mkQ F32_ZERO (v3x w) (v3y w) (v3z w)) k /\ Rdot3 (V3_R w) (V3_R u) = 0%R.
Proof. exact @from_two_perp. Qed.
Print Assumptions C83_antiparallel_branch.

(** But opposite vectors need not take it: for (1.5, 0, 0) and (-1.5, 0, 0) the
    result is 0.966, a rotation by zero. *)
Theorem C83_opposite_refuted : forall {E : Env}, exists u q,
  vec_le u 2 /\ val (v3x u) = 1.5%R /\
  Q_from_two_vectors (H := comp_f32) idf u (mkV3 (fneg (v3x u)) (fneg (v3y u)) (fneg (v3z u))) = Ok q /\
  (0.95 < val (q0 q) < 1)%R /\ val (q1 q) = 0%R /\ val (q2 q) = 0%R /\ val (q3 q) = 0%R.
Proof. exact @from_two_opposite. Qed.
Print Assumptions C83_opposite_refuted.

(** (1, 0, 0) to (0, 1, 0): 0.683 + 0.683k; (1, 0, 0) to (-1, 0, 0): j. *)
Example C83_case : let z := f32_zero false in let o := F32_ONE in
  @Q_from_two_vectors env_debug f32 (@comp_f32 env_debug) idf (mkV3 o z z) (mkV3 z o z) =
    Ok (mkQ (from_bits 0x3F375A86) (from_bits 0) (from_bits 0) (from_bits 0x3F375A86)) /\
  @Q_from_two_vectors env_debug f32 (@comp_f32 env_debug) idf (mkV3 o z z) (mkV3 (fneg o) z z) =
    Ok (mkQ (from_bits 0) (from_bits 0x80000000) (from_bits 0x3F775A86) (from_bits 0)).
Proof. split; apply okq_bits; vm_compute; reflexivity. Qed.

(** ** C84 *)

Theorem C84_quaternion_scaling : forall {E : Env} q k,
  @q_mul_scalar _ arith_f32 q k = @q_scale _ arith_f32 q k /\
  @q_scalar_mul _ arith_f32 k q = @q_scale _ arith_f32 q k /\
  @q_mul_assign_scalar _ arith_f32 q k = @q_scale _ arith_f32 q k /\
  q_to_array (@q_scale _ arith_f32 q k) = map (fun c => fmul c k) (q_to_array q).
Proof. intros. repeat split. Qed.
Print Assumptions C84_quaternion_scaling.

Theorem C84_quaternion_assign : forall {E : Env} p q,
  @q_add_assign _ arith_f32 p q = @q_add _ arith_f32 p q /\ @q_sub_assign _ arith_f32 p q = @q_sub _ arith_f32 p q /\
  q_to_array (@q_add _ arith_f32 p q) = map (fun c => fadd (fst c) (snd c)) (combine (q_to_array p) (q_to_array q)) /\
  q_to_array (@q_sub _ arith_f32 p q) = map (fun c => fsub (fst c) (snd c)) (combine (q_to_array p) (q_to_array q)).
Proof. intros. repeat split. Qed.
Print Assumptions C84_quaternion_assign.

Theorem C84_vector_assign : forall {C} `{Component C} (v w : Vector2d C) (a b : Vector3d C) (c : C),
  v2_add_assign v w = v2_add v w /\ v2_sub_assign v w = v2_sub v w /\ v2_mul_assign v c = v2_scale v c /\
  v3_add_assign a b = v3_add a b /\ v3_sub_assign a b = v3_sub a b /\ v3_mul_assign a c = v3_scale a c.
Proof. intros. repeat split. Qed.
Print Assumptions C84_vector_assign.

Example C84_case : let q := mkQ (f32_of_Z 1) (f32_of_Z 2) (f32_of_Z 3) (f32_of_Z 4) in
  map to_bits (q_to_array (@q_scalar_mul _ (@arith_f32 env_debug) (f32_of_Z 3) q)) =
  map to_bits [f32_of_Z 3; f32_of_Z 6; f32_of_Z 9; f32_of_Z 12].
Proof. vm_compute. reflexivity. Qed.
