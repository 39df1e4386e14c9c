(** * Properties C54-C68: conversions and vectors *)

From Coq Require Import ZArith Reals Bool List Lia Lra Permutation.
From Flocq Require Import Core IEEE754.Binary IEEE754.Bits.
From Verif Require Import Base Spec Float Vector TestEnv F32Lemmas BitLemmas P_Trunc P_Floor Literals ErrLemmas
  P_RoundEdge P_Vector P_VecInt P_SumSq P_VecF32.
Import ListNotations.
Open Scope Z_scope.

(** ** C54 *)

Theorem C54_from_int_exact : forall n, fits i8 n \/ fits i16 n \/ fits u8 n \/ fits u16 n ->
  fin (F32_from_int n) /\ val (F32_from_int n) = IZR n.
Proof. intros n H. apply from_int_exact. unfold fits in H. cbn in H. lia. Qed.
Print Assumptions C54_from_int_exact.

Theorem C54_from_int_order : forall m n, -32768 <= m <= 65535 -> -32768 <= n <= 65535 ->
  fle (F32_from_int m) (F32_from_int n) = (m <=? n) /\ (F32_from_int m = F32_from_int n -> m = n).
Proof. exact from_int_order. Qed.
Print Assumptions C54_from_int_order.

Theorem C54_vector_conversions : forall (v : Vector2d Z) (w : Vector3d Z),
  (forall c, In c (v2_to_array v ++ v3_to_array w) -> -32768 <= c <= 65535) ->
  map val (v2_to_array (v2_into_f32 F32_from_int v)) = map IZR (v2_to_array v) /\
  map val (v3_to_array (v3_into_f32 F32_from_int w)) = map IZR (v3_to_array w).
Proof.
  intros [a b] [c d e] H. cbn in H. cbn [v2_into_f32 v3_into_f32 v2_to_array v3_to_array v2x v2y v3x v3y v3z map].
  rewrite !(fun n K => proj2 (from_int_exact n K)) by (apply H; tauto). split; reflexivity.
Qed.
Print Assumptions C54_vector_conversions.

Example C54_case : to_bits (F32_from_int (-32768)) = 0xC7000000 /\ to_bits (F32_from_int 65535) = 0x477FFF00.
Proof. split; vm_compute; reflexivity. Qed.

(** ** C55 *)

Theorem C55_from_slice_2 : forall {C} (l : list C),
  (length l <> 2%nat <-> vt_from_slice (V := Vector2d C) l = Panic) /\
  (length l = 2%nat -> exists v : Vector2d C, vt_from_slice l = Ok v /\ v2_to_array v = l).
Proof.
  intros C l. destruct (v2_from_iter_spec l) as [A B]. split; [split; [exact A|]|exact B].
  intros H K. destruct (B K) as (v & V & _). unfold vt_from_slice in H. simpl in H. congruence.
Qed.
Print Assumptions C55_from_slice_2.

Theorem C55_from_slice_3 : forall {C} (l : list C),
  (length l <> 3%nat <-> vt_from_slice (V := Vector3d C) l = Panic) /\
  (length l = 3%nat -> exists v : Vector3d C, vt_from_slice l = Ok v /\ v3_to_array v = l).
Proof.
  intros C l. destruct (v3_from_iter_spec l) as [A B]. split; [split; [exact A|]|exact B].
  intros H K. destruct (B K) as (v & V & _). unfold vt_from_slice in H. simpl in H. congruence.
Qed.
Print Assumptions C55_from_slice_3.

Example C55_case : vt_from_slice (V := Vector3d Z) [1; 2] = Panic /\ vt_from_slice [1; 2; 3; 4] = @Panic (Vector3d Z) /\
  vt_from_slice [7; 8] = Ok (mkV2 7 8).
Proof. repeat split. Qed.

(** ** C56 *)

(** The result of the (k+1)-th call of [next], for every k. *)
Theorem C56_iterator_2 : forall {C} (v : Vector2d C) k,
  fst (iter_next (iter_after k (iter_new v))) = nth_error [v2x v; v2y v] k.
Proof. exact @v2_iter_spec. Qed.
Print Assumptions C56_iterator_2.
Theorem C56_iterator_3 : forall {C} (v : Vector3d C) k,
  fst (iter_next (iter_after k (iter_new v))) = nth_error [v3x v; v3y v; v3z v] k.
Proof. exact @v3_iter_spec. Qed.
Print Assumptions C56_iterator_3.

Example C56_case : fst (iter_next (iter_after 2 (iter_new (mkV3 4 5 6)))) = Some 6 /\
  fst (iter_next (iter_after 9 (iter_new (mkV3 4 5 6)))) = None.
Proof. split; reflexivity. Qed.

(** ** C57 *)

Theorem C57_get_index_2 : forall {C} (v : Vector2d C) i, 0 <= i ->
  v2_get v i = nth_error (v2_to_array v) (Z.to_nat i) /\
  (forall c, v2_index v i = Ok c <-> v2_get v i = Some c) /\
  (v2_index v i = Panic <-> v2_get v i = None) /\ (v2_get v i = None <-> 2 <= i).
Proof. exact @v2_get_spec. Qed.
Print Assumptions C57_get_index_2.
Theorem C57_get_index_3 : forall {C} (v : Vector3d C) i, 0 <= i ->
  v3_get v i = nth_error (v3_to_array v) (Z.to_nat i) /\
  (forall c, v3_index v i = Ok c <-> v3_get v i = Some c) /\
  (v3_index v i = Panic <-> v3_get v i = None) /\ (v3_get v i = None <-> 3 <= i).
Proof. exact @v3_get_spec. Qed.
Print Assumptions C57_get_index_3.

Example C57_case : v3_index (mkV3 4 5 6) 2 = Ok 6 /\ v3_index (mkV3 4 5 6) (2 ^ 64 - 1) = Panic.
Proof. split; reflexivity. Qed.

(** ** C58 *)

Theorem C58_conversions_2 : forall {C} (v : Vector2d C) (a b : C),
  v2_of_tuple (v2_to_tuple v) = v /\ v2_to_tuple (v2_of_tuple (a, b)) = (a, b) /\
  v2_to_array (v2_of_array a b) = [a; b] /\ v2_of_array (v2x v) (v2y v) = v /\
  v2_from_iter (v2_to_array v) = Ok v.
Proof. intros C [x y] a b. repeat split. Qed.
Print Assumptions C58_conversions_2.
Theorem C58_conversions_3 : forall {C} {K : Component C} (v : Vector3d C) (u : Vector2d C) (a b c : C),
  v3_of_tuple (v3_to_tuple v) = v /\ v3_to_tuple (v3_of_tuple (a, b, c)) = (a, b, c) /\
  v3_to_array (v3_of_array a b c) = [a; b; c] /\ v3_of_array (v3x v) (v3y v) (v3z v) = v /\
  v3_from_iter (v3_to_array v) = Ok v /\
  v3_to_array (v3_of_v2 u) = v2_to_array u ++ [c_default].
Proof. intros C K [x y z] u a b c. repeat split. Qed.
Print Assumptions C58_conversions_3.

Example C58_case : v3_of_v2 (H := @comp_int env_debug i8) (mkV2 3 4) = mkV3 3 4 0 /\
  v3_of_v2 (H := @comp_f32 env_debug) (mkV2 F32_ONE F32_ONE) = mkV3 F32_ONE F32_ONE (f32_zero false).
Proof. split; reflexivity. Qed.

(** ** C59 *)

Theorem C59_add_2 : forall {E : Env} t v w, int_type t ->
  all_machine t [v2x v + v2x w; v2y v + v2y w] (res_map v2_to_array (v2_add (H := comp_int t) v w)).
Proof. intros E t v w T. exact (pair_machine t _ _ T). Qed.
Print Assumptions C59_add_2.
Theorem C59_sub_2 : forall {E : Env} t v w, int_type t ->
  all_machine t [v2x v - v2x w; v2y v - v2y w] (res_map v2_to_array (v2_sub (H := comp_int t) v w)).
Proof. intros E t v w T. exact (pair_machine t _ _ T). Qed.
Print Assumptions C59_sub_2.
Theorem C59_scale_2 : forall {E : Env} t v c, int_type t ->
  all_machine t [v2x v * c; v2y v * c] (res_map v2_to_array (v2_scale (H := comp_int t) v c)).
Proof. intros E t v c T. exact (pair_machine t _ _ T). Qed.
Print Assumptions C59_scale_2.
Theorem C59_add_3 : forall {E : Env} t v w, int_type t ->
  all_machine t [v3x v + v3x w; v3y v + v3y w; v3z v + v3z w] (res_map v3_to_array (v3_add (H := comp_int t) v w)).
Proof. intros E t v w T. exact (triple_machine t _ _ _ T). Qed.
Print Assumptions C59_add_3.
Theorem C59_sub_3 : forall {E : Env} t v w, int_type t ->
  all_machine t [v3x v - v3x w; v3y v - v3y w; v3z v - v3z w] (res_map v3_to_array (v3_sub (H := comp_int t) v w)).
Proof. intros E t v w T. exact (triple_machine t _ _ _ T). Qed.
Print Assumptions C59_sub_3.
Theorem C59_scale_3 : forall {E : Env} t v c, int_type t ->
  all_machine t [v3x v * c; v3y v * c; v3z v * c] (res_map v3_to_array (v3_scale (H := comp_int t) v c)).
Proof. intros E t v c T. exact (triple_machine t _ _ _ T). Qed.
Print Assumptions C59_scale_3.

Example C59_case : int_type i8 /\ ~ Forall (fits i8) [100 + 100; 1 + 1] /\
  v2_add (H := @comp_int env_debug i8) (mkV2 100 1) (mkV2 100 1) = Panic /\
  v2_add (H := @comp_int env_release i8) (mkV2 100 1) (mkV2 100 1) = Ok (mkV2 (-56) 2).
Proof.
  split; [left; reflexivity|]. split; [|split; reflexivity].
  intros H. inversion H as [|? ? F]. unfold fits in F. cbn in F. lia.
Qed.

(** ** C60 *)

Definition div_panics (t : ity) (l : list Z) (c : Z) : Prop :=
  c = 0 \/ (ity_signed t = true /\ In (- 2 ^ (ity_bits t - 1)) l /\ c = -1).

Lemma div_panics_iff : forall t (l : list Z) c, l <> [] ->
  (l <> [] /\ c = 0 \/ (ity_signed t = true /\ In (- 2 ^ (ity_bits t - 1)) l /\ c = -1)) <-> div_panics t l c.
Proof. intros t l c H. unfold div_panics. tauto. Qed.

Theorem C60_div_2 : forall {E : Env} t v c, int_type t -> Forall (fits t) (v2_to_array v) -> fits t c ->
  let r := res_map v2_to_array (v2_div (H := comp_int t) v c) in
  (r = Panic <-> div_panics t (v2_to_array v) c) /\
  (~ div_panics t (v2_to_array v) c -> r = Ok [Z.quot (v2x v) c; Z.quot (v2y v) c]).
Proof.
  intros E t v c T F Fc r. unfold r. rewrite v2_div_mapM. destruct (mapM_div t c _ T F Fc) as [A B].
  rewrite div_panics_iff in A by discriminate. split; [exact A|]. intros N. apply B.
  - intros ->. apply N. left. reflexivity.
  - intros K. apply N, A, K.
Qed.
Print Assumptions C60_div_2.
Theorem C60_div_3 : forall {E : Env} t v c, int_type t -> Forall (fits t) (v3_to_array v) -> fits t c ->
  let r := res_map v3_to_array (v3_div (H := comp_int t) v c) in
  (r = Panic <-> div_panics t (v3_to_array v) c) /\
  (~ div_panics t (v3_to_array v) c -> r = Ok [Z.quot (v3x v) c; Z.quot (v3y v) c; Z.quot (v3z v) c]).
Proof.
  intros E t v c T F Fc r. unfold r. rewrite v3_div_mapM. destruct (mapM_div t c _ T F Fc) as [A B].
  rewrite div_panics_iff in A by discriminate. split; [exact A|]. intros N. apply B.
  - intros ->. apply N. left. reflexivity.
  - intros K. apply N, A, K.
Qed.
Print Assumptions C60_div_3.
Theorem C60_div_assign : forall {C} {K : Component C} (v : Vector2d C) (w : Vector3d C) c,
  v2_div_assign v c = v2_div v c /\ v3_div_assign w c = v3_div w c.
Proof. intros C K v w c. split; [apply v2_div_assign_eq|apply v3_div_assign_eq]. Qed.
Print Assumptions C60_div_assign.

Example C60_case : v2_div (H := @comp_int env_release i8) (mkV2 7 (-128)) (-1) = Panic /\
  v2_div (H := @comp_int env_release i8) (mkV2 7 (-128)) (-2) = Ok (mkV2 (-3) 64) /\
  v2_div (H := @comp_int env_release u8) (mkV2 7 8) 0 = Panic.
Proof. repeat split. Qed.

(** ** C61 *)

(** c * v has the products c*x, c*y, c*z: exactly or wrapped or panicking for
    integers, bit for bit (up to which NaN) for floats; it is the same as v * c. *)
Theorem C61_int_2 : forall {E : Env} t c v, int_type t ->
  all_machine t [c * v2x v; c * v2y v] (res_map v2_to_array (v2_scale_left (H := comp_int t) c v)).
Proof.
  intros E t c v T. rewrite (Z.mul_comm c (v2x v)), (Z.mul_comm c (v2y v)). exact (pair_machine t _ _ T).
Qed.
Print Assumptions C61_int_2.
Theorem C61_int_3 : forall {E : Env} t c v, int_type t ->
  all_machine t [c * v3x v; c * v3y v; c * v3z v] (res_map v3_to_array (v3_scale_left (H := comp_int t) c v)).
Proof.
  intros E t c v T. rewrite (Z.mul_comm c (v3x v)), (Z.mul_comm c (v3y v)), (Z.mul_comm c (v3z v)).
  exact (triple_machine t _ _ _ T).
Qed.
Print Assumptions C61_int_3.
Theorem C61_f32 : forall {E : Env} c v w, exists v' w',
  v2_scale_left (H := comp_f32) c v = Ok v' /\ v3_scale_left (H := comp_f32) c w = Ok w' /\
  Forall2 same (v2_to_array v') [fmul c (v2x v); fmul c (v2y v)] /\
  Forall2 same (v3_to_array w') [fmul c (v3x w); fmul c (v3y w); fmul c (v3z w)].
Proof.
  intros E c v w. do 2 eexists. split; [reflexivity|]. split; [reflexivity|].
  split; repeat (apply Forall2_cons; [apply fmul_comm|]); apply Forall2_nil.
Qed.
Print Assumptions C61_f32.
Theorem C61_commutes : forall {C} {K : Component C} c (v : Vector2d C) (w : Vector3d C),
  v2_scale_left c v = v2_scale v c /\ v3_scale_left c w = v3_scale w c.
Proof. intros C K c v w. split; reflexivity. Qed.
Print Assumptions C61_commutes.

Example C61_case : v2_scale_left (H := @comp_int env_release i8) 3 (mkV2 50 (-2)) = Ok (mkV2 (-106) (-6)).
Proof. reflexivity. Qed.

(** ** C62 *)

(** With overflow checks: returns iff the products and partial sums fit, and then the exact value. *)
Theorem C62_dot_checked_2 : forall {E : Env} t v w d, int_type t -> overflow_checks = true ->
  (v2_dot (H := comp_int t) v w = Ok d <->
   fits t (v2x v * v2x w) /\ fits t (v2y v * v2y w) /\ fits t (v2x v * v2x w + v2y v * v2y w) /\
   d = v2x v * v2x w + v2y v * v2y w).
Proof. exact @v2_dot_checked. Qed.
Print Assumptions C62_dot_checked_2.
Theorem C62_dot_checked_3 : forall {E : Env} t v w d, int_type t -> overflow_checks = true ->
  (v3_dot (H := comp_int t) v w = Ok d <->
   fits t (v3x v * v3x w) /\ fits t (v3y v * v3y w) /\ fits t (v3z v * v3z w) /\
   fits t (v3x v * v3x w + v3y v * v3y w) /\
   fits t (v3x v * v3x w + v3y v * v3y w + v3z v * v3z w) /\
   d = v3x v * v3x w + v3y v * v3y w + v3z v * v3z w).
Proof. exact @v3_dot_checked. Qed.
Print Assumptions C62_dot_checked_3.
(** Without: the exact value modulo 2^bits. *)
Theorem C62_dot_release : forall {E : Env} t v w v' w', int_type t -> overflow_checks = false ->
  exists d e, v2_dot (H := comp_int t) v w = Ok d /\ wraps_to t (v2x v * v2x w + v2y v * v2y w) d /\
    v3_dot (H := comp_int t) v' w' = Ok e /\
    wraps_to t (v3x v' * v3x w' + v3y v' * v3y w' + v3z v' * v3z w') e.
Proof.
  intros E t v w v' w' T O. destruct (v2_dot_release t v w T O) as [d D]. destruct (v3_dot_release t v' w' T O) as [e D'].
  exists d, e. split; [exact D|]. split; [exact (v2_dot_eqm t v w d T D)|].
  split; [exact D'|exact (v3_dot_eqm t v' w' e T D')].
Qed.
Print Assumptions C62_dot_release.
Theorem C62_dot_symmetric : forall {E : Env} t v w v' w',
  v2_dot (H := comp_int t) v w = v2_dot (H := comp_int t) w v /\
  v3_dot (H := comp_int t) v' w' = v3_dot (H := comp_int t) w' v'.
Proof. intros E t v w v' w'. split; [apply v2_dot_comm|apply v3_dot_comm]. Qed.
Print Assumptions C62_dot_symmetric.
Theorem C62_dot_linear_2 : forall {E : Env} t u v w uv d1 d2 d12, int_type t ->
  v2_add (H := comp_int t) u v = Ok uv ->
  v2_dot (H := comp_int t) u w = Ok d1 -> v2_dot (H := comp_int t) v w = Ok d2 ->
  v2_dot (H := comp_int t) uv w = Ok d12 -> wraps_to t (d1 + d2) d12.
Proof. exact @v2_dot_linear. Qed.
Print Assumptions C62_dot_linear_2.
Theorem C62_dot_linear_3 : forall {E : Env} t u v w uv d1 d2 d12, int_type t ->
  v3_add (H := comp_int t) u v = Ok uv ->
  v3_dot (H := comp_int t) u w = Ok d1 -> v3_dot (H := comp_int t) v w = Ok d2 ->
  v3_dot (H := comp_int t) uv w = Ok d12 -> wraps_to t (d1 + d2) d12.
Proof. exact @v3_dot_linear. Qed.
Print Assumptions C62_dot_linear_3.
Theorem C62_dot_f32 : forall {E : Env} v w v' w', exists a b a' b',
  v2_dot (H := comp_f32) v w = Ok a /\ v2_dot (H := comp_f32) w v = Ok b /\ same a b /\
  v3_dot (H := comp_f32) v' w' = Ok a' /\ v3_dot (H := comp_f32) w' v' = Ok b' /\ same a' b'.
Proof.
  intros E v w v' w'. destruct (v2_dot_f32_sym v w) as (a & b & A & B & S).
  destruct (v3_dot_f32_sym v' w') as (a' & b' & A' & B' & S'). exists a, b, a', b'. auto 10.
Qed.
Print Assumptions C62_dot_f32.
(** [magnitude_sq] is the dot product with itself, panics included. *)
Theorem C62_magnitude_sq : forall {E : Env} t v w, int_type t ->
  vt_magnitude_sq (H0 := comp_int t) v = v2_dot (H := comp_int t) v v /\
  vt_magnitude_sq (H0 := comp_int t) w = v3_dot (H := comp_int t) w w.
Proof. intros E t v w T. split; [apply v2_magsq|apply v3_magsq]; assumption. Qed.
Print Assumptions C62_magnitude_sq.

Example C62_case : v3_dot (H := @comp_int env_debug i8) (mkV3 1 2 3) (mkV3 4 (-5) 6) = Ok 12 /\
  v3_dot (H := @comp_int env_debug i8) (mkV3 10 10 1) (mkV3 10 10 (-100)) = Panic /\
  v3_dot (H := @comp_int env_release i8) (mkV3 10 10 1) (mkV3 10 10 (-100)) = Ok 100.
Proof. repeat split. Qed.

(** ** C63 *)

Theorem C63_cross_checked : forall {E : Env} t v w c, int_type t -> overflow_checks = true ->
  (v3_cross (H := comp_int t) v w = Ok c <->
   Forall (fits t) [v3y v * v3z w; v3z v * v3y w; v3y v * v3z w - v3z v * v3y w;
                    v3z v * v3x w; v3x v * v3z w; v3z v * v3x w - v3x v * v3z w;
                    v3x v * v3y w; v3y v * v3x w; v3x v * v3y w - v3y v * v3x w] /\
   c = mkV3 (v3y v * v3z w - v3z v * v3y w) (v3z v * v3x w - v3x v * v3z w)
            (v3x v * v3y w - v3y v * v3x w)).
Proof. exact @v3_cross_checked. Qed.
Print Assumptions C63_cross_checked.
Theorem C63_cross_release : forall {E : Env} t v w, int_type t -> overflow_checks = false ->
  exists c, v3_cross (H := comp_int t) v w = Ok c /\
  wraps_to t (v3y v * v3z w - v3z v * v3y w) (v3x c) /\
  wraps_to t (v3z v * v3x w - v3x v * v3z w) (v3y c) /\
  wraps_to t (v3x v * v3y w - v3y v * v3x w) (v3z c).
Proof.
  intros E t v w T O. destruct (v3_cross_release t v w T O) as [c C]. exists c. split; [exact C|].
  exact (v3_cross_eqm t v w c T C).
Qed.
Print Assumptions C63_cross_release.
(** In either build mode: anticommutative, self product zero, orthogonal to its
    arguments, and Lagrange's identity, all in the arithmetic of the type. *)
Theorem C63_cross_anti : forall {E : Env} t v w c c', int_type t ->
  v3_cross (H := comp_int t) v w = Ok c -> v3_cross (H := comp_int t) w v = Ok c' ->
  wraps_to t (- v3x c') (v3x c) /\ wraps_to t (- v3y c') (v3y c) /\ wraps_to t (- v3z c') (v3z c).
Proof. exact @v3_cross_anti. Qed.
Print Assumptions C63_cross_anti.
Theorem C63_cross_self : forall {E : Env} t v c, int_type t ->
  v3_cross (H := comp_int t) v v = Ok c -> c = mkV3 0 0 0.
Proof. exact @v3_cross_self. Qed.
Print Assumptions C63_cross_self.
Theorem C63_cross_orthogonal : forall {E : Env} t v w c d, int_type t ->
  v3_cross (H := comp_int t) v w = Ok c ->
  (v3_dot (H := comp_int t) v c = Ok d -> d = 0) /\ (v3_dot (H := comp_int t) w c = Ok d -> d = 0).
Proof. exact @v3_cross_orth. Qed.
Print Assumptions C63_cross_orthogonal.
Theorem C63_lagrange : forall {E : Env} t v w c vv ww vw cc, int_type t ->
  v3_cross (H := comp_int t) v w = Ok c ->
  v3_dot (H := comp_int t) v v = Ok vv -> v3_dot (H := comp_int t) w w = Ok ww ->
  v3_dot (H := comp_int t) v w = Ok vw -> v3_dot (H := comp_int t) c c = Ok cc ->
  wraps_to t (vv * ww - vw * vw) cc.
Proof. exact @v3_lagrange. Qed.
Print Assumptions C63_lagrange.
Theorem C63_cross_f32_anti : forall {E : Env} v w, exists a b,
  v3_cross (H := comp_f32) v w = Ok a /\ v3_cross (H := comp_f32) w v = Ok b /\
  opposite (v3x a) (v3x b) /\ opposite (v3y a) (v3y b) /\ opposite (v3z a) (v3z b).
Proof. exact @v3_cross_f32_anti. Qed.
Print Assumptions C63_cross_f32_anti.
Theorem C63_cross_f32_self : forall {E : Env} v c, v3_cross (H := comp_f32) v v = Ok c ->
  fin (fmul (v3y v) (v3z v)) -> fin (fmul (v3z v) (v3x v)) -> fin (fmul (v3x v) (v3y v)) ->
  c = mkV3 (f32_zero false) (f32_zero false) (f32_zero false).
Proof. exact @v3_cross_f32_self. Qed.
Print Assumptions C63_cross_f32_self.

Example C63_case : v3_cross (H := @comp_int env_release i8) (mkV3 100 (-3) 5) (mkV3 7 90 (-128)) = Ok (mkV3 (-66) 35 61) /\
  v3_dot (H := @comp_int env_release i8) (mkV3 100 (-3) 5) (mkV3 (-66) 35 61) = Ok 0.
Proof. split; reflexivity. Qed.

(** ** C64 *)

Theorem C64_cross_int : forall {E : Env} t v w, int_type t ->
  v2_cross (H := comp_int t) v w = res_map (fun d => mkV3 0 0 d) (v2_perpendicular_dot (H := comp_int t) v w).
Proof. exact @v2_cross_int. Qed.
Print Assumptions C64_cross_int.
Theorem C64_perp_int : forall {E : Env} t v w, int_type t ->
  (overflow_checks = true -> forall d, v2_perpendicular_dot (H := comp_int t) v w = Ok d <->
     fits t (v2x v * v2y w) /\ fits t (v2y v * v2x w) /\ fits t (v2x v * v2y w - v2y v * v2x w) /\
     d = v2x v * v2y w - v2y v * v2x w) /\
  (forall d, v2_perpendicular_dot (H := comp_int t) v w = Ok d -> wraps_to t (v2x v * v2y w - v2y v * v2x w) d).
Proof.
  intros E t v w T. split.
  - intros O d. apply v2_perp_checked; assumption.
  - intros d. apply v2_perp_eqm. assumption.
Qed.
Print Assumptions C64_perp_int.
Theorem C64_cross_f32 : forall {E : Env} v w, exists c p,
  v2_cross (H := comp_f32) v w = Ok c /\ v2_perpendicular_dot (H := comp_f32) v w = Ok p /\ v3z c = p /\
  (fin (v2y v) -> fin (v2y w) -> fin (v3x c) /\ val (v3x c) = 0%R) /\
  (fin (v2x v) -> fin (v2x w) -> fin (v3y c) /\ val (v3y c) = 0%R) /\
  (is_finite (v2y v) = false \/ is_finite (v2y w) = false -> nan (v3x c)) /\
  (is_finite (v2x v) = false \/ is_finite (v2x w) = false -> nan (v3y c)).
Proof. exact @v2_cross_f32. Qed.
Print Assumptions C64_cross_f32.

Example C64_case : v2_cross (H := @comp_int env_debug i16) (mkV2 3 4) (mkV2 5 7) = Ok (mkV3 0 0 1) /\
  v2_perpendicular_dot (H := @comp_int env_debug i16) (mkV2 3 4) (mkV2 5 7) = Ok 1.
Proof. split; reflexivity. Qed.

(** ** C65 *)

Theorem C65_sum_checked_2 : forall {E : Env} t l s, int_type t -> overflow_checks = true ->
  (v2_sum (H := comp_int t) l = Ok s <->
   prefixes_fit t (map v2x l) /\ prefixes_fit t (map v2y l) /\
   s = mkV2 (zsum (map v2x l)) (zsum (map v2y l))).
Proof. exact @v2_sum_checked. Qed.
Print Assumptions C65_sum_checked_2.
Theorem C65_sum_checked_3 : forall {E : Env} t l s, int_type t -> overflow_checks = true ->
  (v3_sum (H := comp_int t) l = Ok s <->
   prefixes_fit t (map v3x l) /\ prefixes_fit t (map v3y l) /\ prefixes_fit t (map v3z l) /\
   s = mkV3 (zsum (map v3x l)) (zsum (map v3y l)) (zsum (map v3z l))).
Proof. exact @v3_sum_checked. Qed.
Print Assumptions C65_sum_checked_3.
Theorem C65_sum_release_2 : forall {E : Env} t l, int_type t -> overflow_checks = false ->
  exists s, v2_sum (H := comp_int t) l = Ok s /\
  wraps_to t (zsum (map v2x l)) (v2x s) /\ wraps_to t (zsum (map v2y l)) (v2y s).
Proof.
  intros E t l T O. destruct (v2_sum_release t l T O) as [s S]. exists s. split; [exact S|].
  exact (v2_sum_eqm t l s T S).
Qed.
Print Assumptions C65_sum_release_2.
Theorem C65_sum_release_3 : forall {E : Env} t l, int_type t -> overflow_checks = false ->
  exists s, v3_sum (H := comp_int t) l = Ok s /\
  wraps_to t (zsum (map v3x l)) (v3x s) /\ wraps_to t (zsum (map v3y l)) (v3y s) /\
  wraps_to t (zsum (map v3z l)) (v3z s).
Proof.
  intros E t l T O. destruct (v3_sum_release t l T O) as [s S]. exists s. split; [exact S|].
  exact (v3_sum_eqm t l s T S).
Qed.
Print Assumptions C65_sum_release_3.
(** Two orders that both return give the same result; without overflow checks
    every order returns. *)
Theorem C65_sum_permutation : forall {E : Env} t, int_type t ->
  (forall l l' s s', Permutation l l' -> v2_sum (H := comp_int t) l = Ok s -> v2_sum (H := comp_int t) l' = Ok s' -> s = s') /\
  (forall l l' s s', Permutation l l' -> v3_sum (H := comp_int t) l = Ok s -> v3_sum (H := comp_int t) l' = Ok s' -> s = s').
Proof.
  intros E t T. split; intros l l' s s' P A B; [exact (v2_sum_perm t l l' s s' T P A B)|exact (v3_sum_perm t l l' s s' T P A B)].
Qed.
Print Assumptions C65_sum_permutation.
(** For any component type, a left fold from the default. *)
Theorem C65_sum_fold : forall {C} {K : Component C} (l : list (Vector2d C)) (m : list (Vector3d C)) v w,
  v2_sum (l ++ [v]) = bind (v2_sum l) (fun s => v2_add s v) /\ v2_sum (@nil (Vector2d C)) = Ok (mkV2 c_default c_default) /\
  v3_sum (m ++ [w]) = bind (v3_sum m) (fun s => v3_add s w) /\ v3_sum (@nil (Vector3d C)) = Ok (mkV3 c_default c_default c_default).
Proof.
  assert (G : forall A B (f : B -> A -> res B) l a acc, foldM f (l ++ [a]) acc = bind (foldM f l acc) (fun s => f s a)).
  { intros A B f l a. induction l as [|b l IH]; intros acc; simpl.
    - destruct (f acc a); reflexivity.
    - destruct (f acc b); simpl; trivial. }
  intros C K l m v w. unfold v2_sum, v3_sum. rewrite !G. repeat split.
Qed.
Print Assumptions C65_sum_fold.

Example C65_case : v2_sum (H := @comp_int env_debug i8) [mkV2 100 1; mkV2 (-50) 2; mkV2 70 3] = Ok (mkV2 120 6) /\
  v2_sum (H := @comp_int env_debug i8) [mkV2 100 1; mkV2 70 3; mkV2 (-50) 2] = Panic /\
  v2_sum (H := @comp_int env_release i8) [mkV2 100 1; mkV2 70 3; mkV2 (-50) 2] = Ok (mkV2 120 6).
Proof. repeat split. Qed.

(** ** C66 *)

Theorem C66_magnitude_2 : forall {E : Env} {C} (into : C -> f32) (v : Vector2d C),
  let l := map into (v2_to_array v) in
  Forall sq_ok l -> (0 < rsumsq l <= bpow radix2 126)%R ->
  exists z, vt_magnitude into v = Ok z /\ normal_pos z /\
    ((1 - bpow radix2 (-20)) * sqrt (rsumsq l) <= val z <= 1.0607 * sqrt (rsumsq l))%R.
Proof. exact @v2_magnitude_acc. Qed.
Print Assumptions C66_magnitude_2.
Theorem C66_magnitude_3 : forall {E : Env} {C} (into : C -> f32) (v : Vector3d C),
  let l := map into (v3_to_array v) in
  Forall sq_ok l -> (0 < rsumsq l <= bpow radix2 126)%R ->
  exists z, vt_magnitude into v = Ok z /\ normal_pos z /\
    ((1 - bpow radix2 (-20)) * sqrt (rsumsq l) <= val z <= 1.0607 * sqrt (rsumsq l))%R.
Proof. exact @v3_magnitude_acc. Qed.
Print Assumptions C66_magnitude_3.
(** The distance is within the same bounds of the norm of the rounded differences. *)
Theorem C66_distance_2 : forall {E : Env} {C} (into : C -> f32) (v w : Vector2d C),
  let l := [fsub (into (v2x v)) (into (v2x w)); fsub (into (v2y v)) (into (v2y w))] in
  Forall sq_ok l -> (0 < rsumsq l <= bpow radix2 126)%R ->
  exists z, vt_distance into v w = Ok z /\ normal_pos z /\
    ((1 - bpow radix2 (-20)) * sqrt (rsumsq l) <= val z <= 1.0607 * sqrt (rsumsq l))%R.
Proof. exact @v2_distance_acc. Qed.
Print Assumptions C66_distance_2.
Theorem C66_distance_3 : forall {E : Env} {C} (into : C -> f32) (v w : Vector3d C),
  let l := [fsub (into (v3x v)) (into (v3x w)); fsub (into (v3y v)) (into (v3y w)); fsub (into (v3z v)) (into (v3z w))] in
  Forall sq_ok l -> (0 < rsumsq l <= bpow radix2 126)%R ->
  exists z, vt_distance into v w = Ok z /\ normal_pos z /\
    ((1 - bpow radix2 (-20)) * sqrt (rsumsq l) <= val z <= 1.0607 * sqrt (rsumsq l))%R.
Proof. exact @v3_distance_acc. Qed.
Print Assumptions C66_distance_3.
Theorem C66_distance_symmetric : forall {E : Env} {V C} {T : VectorT V C} (into : C -> f32) v w,
  vt_distance into v w = vt_distance into w v.
Proof. exact @distance_sym. Qed.
Print Assumptions C66_distance_symmetric.
Theorem C66_distance_self : forall {E : Env} {C} (into : C -> f32) (v : Vector2d C) (w : Vector3d C),
  Forall fin (map into (v2_to_array v)) -> Forall fin (map into (v3_to_array w)) ->
  vt_distance into v v = Ok (from_bits 0x1FC00000) /\ vt_distance into w w = Ok (from_bits 0x1FC00000) /\
  val (from_bits 0x1FC00000) = (3 / 2 * bpow radix2 (-64))%R.
Proof.
  intros E C into v w F G. rewrite Forall_forall in F, G. split; [|split].
  - apply v2_distance_self; apply F; cbn; tauto.
  - apply v3_distance_self; apply G; cbn; tauto.
  - apply P_InvSqrt.sqrt_edges.
Qed.
Print Assumptions C66_distance_self.
Theorem C66_total : forall {E : Env} {V C} {T : VectorT V C} (into : C -> f32) v w,
  (exists d, vt_distance into v w = Ok d) /\ (exists m, vt_magnitude into v = Ok m).
Proof. intros E V C T into v w. split; [apply distance_total|apply magnitude_total]. Qed.
Print Assumptions C66_total.

(** |(3,4)| = 5.125 *)
Example C66_case : let v := mkV2 3 4 in let l := map F32_from_int (v2_to_array v) in
  Forall sq_ok l /\ (0 < rsumsq l <= bpow radix2 126)%R /\
  vt_magnitude (E := env_debug) F32_from_int v = Ok (from_bits 0x40A40000).
Proof.
  intros v l.
  assert (V3 : val (F32_from_int 3) = 3%R) by (apply (from_int_exact 3); lia).
  assert (V4 : val (F32_from_int 4) = 4%R) by (apply (from_int_exact 4); lia).
  assert (B : (bpow radix2 (-126) <= 1)%R) by (apply (bpow_le radix2 (-126) 0); lia).
  assert (B2 : (64 <= bpow radix2 125)%R) by (change 64%R with (bpow radix2 6); apply bpow_le; lia).
  assert (B3 : (64 <= bpow radix2 126)%R) by (change 64%R with (bpow radix2 6); apply bpow_le; lia).
  split; [|split].
  - unfold l, v. cbn [v2_to_array v2x v2y map].
    apply Forall_cons; [|apply Forall_cons; [|apply Forall_nil]]; (split; [reflexivity|right]).
    + rewrite V3. lra.
    + rewrite V4. lra.
  - change (rsumsq l) with (val (F32_from_int 3) * val (F32_from_int 3) + (val (F32_from_int 4) * val (F32_from_int 4) + 0))%R.
    rewrite V3, V4. lra.
  - apply ok_bits; vm_compute; reflexivity.
Qed.

(** ** C67 *)

Theorem C67_normalized_2 : forall {E : Env} (v : Vector2d f32), let l := v2_to_array v in
  Forall sq_ok l -> (0 < rsumsq l <= bpow radix2 126)%R ->
  exists w, vt_normalized idf idf v = Ok w /\ Forall fin (v2_to_array w) /\
    (0.942 <= sqrt (rsumsq (v2_to_array w)) <= 1.00001)%R.
Proof. exact @v2_normalized_acc. Qed.
Print Assumptions C67_normalized_2.
Theorem C67_normalized_3 : forall {E : Env} (v : Vector3d f32), let l := v3_to_array v in
  Forall sq_ok l -> (0 < rsumsq l <= bpow radix2 126)%R ->
  exists w, vt_normalized idf idf v = Ok w /\ Forall fin (v3_to_array w) /\
    (0.942 <= sqrt (rsumsq (v3_to_array w)) <= 1.00001)%R.
Proof. exact @v3_normalized_acc. Qed.
Print Assumptions C67_normalized_3.
Theorem C67_normalized_zero : forall {E : Env} s t u,
  vt_normalized idf idf (mkV2 (f32_zero s) (f32_zero t)) = Ok (mkV2 (f32_zero s) (f32_zero t)) /\
  vt_normalized idf idf (mkV3 (f32_zero s) (f32_zero t) (f32_zero u)) = Ok (mkV3 (f32_zero s) (f32_zero t) (f32_zero u)).
Proof. intros E s t u. split; [apply v2_normalized_zero|apply v3_normalized_zero]. Qed.
Print Assumptions C67_normalized_zero.

(** (3, 4) normalizes to (0.5853659, 0.7804878), of norm 0.9756. *)
Example C67_case : vt_normalized (E := env_debug) idf idf (mkV2 (F32_from_int 3) (F32_from_int 4))
  = Ok (mkV2 (from_bits 0x3F15DA89) (from_bits 0x3F47CE0C)).
Proof.
  assert (G : res_map (fun v => map to_bits (v2_to_array v))
    (vt_normalized (E := env_debug) idf idf (mkV2 (F32_from_int 3) (F32_from_int 4))) = Ok [0x3F15DA89; 0x3F47CE0C])
    by (vm_compute; reflexivity).
  destruct (vt_normalized _ _ _) as [[x y]| |]; try discriminate. injection G as X Y.
  f_equal. f_equal; apply to_bits_inj; [rewrite X|rewrite Y]; vm_compute; reflexivity.
Qed.

(** ** C68 *)

Theorem C68_map : forall {C} (f : C -> C) (v : Vector2d C) (w : Vector3d C),
  vt_map f v = Ok (mkV2 (f (v2x v)) (f (v2y v))) /\
  vt_map f w = Ok (mkV3 (f (v3x w)) (f (v3y w)) (f (v3z w))).
Proof. intros C f v w. split; [apply v2_map_spec|apply v3_map_spec]. Qed.
Print Assumptions C68_map.

Example C68_case : vt_map (fun n => n * n) (mkV3 3 4 5) = Ok (mkV3 9 16 25).
Proof. reflexivity. Qed.
