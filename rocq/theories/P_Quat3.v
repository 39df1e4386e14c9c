(** * Proofs for C101-C104: forwarding, cross products, textbook quaternion formulas *)

From Coq Require Import ZArith Reals Bool List Lia Lra.
From Flocq Require Import Core IEEE754.Binary IEEE754.Bits.
From Verif Require Import Base Spec Float Vector Quaternion F32Lemmas BitLemmas P_Trunc P_Floor Literals ErrLemmas P_RoundEdge
  NanLemmas P_Euclid P_Roots P_InvSqrt P_Recip P_Vector P_VecInt P_SumSq P_VecF32 P_Stats QuatReal P_Quat P_Quat2 SpecQuat.
Import ListNotations.
Open Scope Z_scope.

(** ** The axis of the antiparallel branch is not short *)


Lemma perp_long : forall {E : Env} u, fin (v3x u) -> fin (v3z u) ->
  let w := if fgt (F32_abs (v3x u)) (F32_abs (v3z u)) then mkV3 (fneg (v3y u)) (v3x u) F32_ZERO
           else mkV3 F32_ZERO (fneg (v3z u)) (v3y u) in
  (Rdot3 (V3_R u) (V3_R u) <= 2 * Rdot3 (V3_R w) (V3_R w))%R.
Proof.
  intros E u Fx Fz w. unfold w, fgt. rewrite flt_R, !abs_val by (unfold fin; rewrite abs_fin; assumption).
  assert (Q : forall r, (r * r = Rabs r * Rabs r)%R) by (intros r; rewrite <- Rabs_mult; symmetry; apply Rabs_pos_eq, Rle_0_sqr).
  pose proof (Rle_0_sqr (val (v3y u))) as Y. unfold Rsqr in Y.
  pose proof (Rabs_pos (val (v3x u))). pose proof (Rabs_pos (val (v3z u))).
  destruct (Rlt_bool_spec (Rabs (val (v3z u))) (Rabs (val (v3x u)))) as [L|L];
    unfold Rdot3, V3_R; cbn [v3x v3y v3z]; rewrite fneg_val; change (val F32_ZERO) with 0%R.
  - assert (M : (val (v3z u) * val (v3z u) <= val (v3x u) * val (v3x u))%R).
    { rewrite (Q (val (v3z u))), (Q (val (v3x u))). apply Rmult_le_compat; lra. } lra.
  - assert (M : (val (v3x u) * val (v3x u) <= val (v3z u) * val (v3z u))%R).
    { rewrite (Q (val (v3z u))), (Q (val (v3x u))). apply Rmult_le_compat; lra. } lra.
Qed.

Lemma from_two_perp_strong : forall {E : Env} u v n q, vec_le u (bpow radix2 29) -> vec_le v (bpow radix2 29) ->
  F32_sqrt (fmul (dot3 u u) (dot3 v v)) = Ok n -> flt (fadd n (dot3 u v)) (fmul c_1em6 n) = true ->
  Q_from_two_vectors (H := comp_f32) idf u v = Ok q ->
  exists w k, q = @q_scale _ arith_f32 (mkQ F32_ZERO (v3x w) (v3y w) (v3z w)) k /\
    Rdot3 (V3_R w) (V3_R u) = 0%R /\ (Rdot3 (V3_R u) (V3_R u) <= 2 * Rdot3 (V3_R w) (V3_R w))%R /\
    fin k /\ (0 < val k)%R.
Proof.
  intros E u v n q Hu Hv S T H. rewrite from_two_eq, S in H. cbn [bind] in H.
  destruct (sqrt_of_prod u v Hu Hv) as (n' & S' & Fn & Bn). rewrite S in S'. injection S' as <-.
  destruct (between_raw_bounds n u v Hu Hv Fn Bn) as [B P].
  pose proof (norm_fin _ B) as Fr. pose proof (fin_nonneg _ (norm_nonneg _) Fr) as Sr.
  destruct (invsqrt_antitone (@q_norm _ arith_f32 (between_raw n u v)) (@q_norm _ arith_f32 (between_raw n u v)))
    as (k & b & A1 & A2 & Fa & Fb & A3); trivial.
  { apply fin_not_nan. exact Fr. }
  { apply fin_not_nan. exact Fr. }
  { rewrite fle_R; [|exact Fr|exact Fr]. apply Rle_bool_true. apply Rle_refl. }
  rewrite A1 in H. cbn [bind] in H. injection H as <-.
  destruct Hu as [(F0 & F1 & F2) _]. pose proof (perp_long u F0 F2) as L. cbv zeta in L.
  unfold between_raw in *. cbv zeta in *. rewrite T in *.
  destruct (fgt _ _).
  - exists (mkV3 (fneg (v3y u)) (v3x u) F32_ZERO), k. split; [reflexivity|]. split; [|split; [exact L|split; [exact Fa|lra]]].
    unfold Rdot3, V3_R. cbn [v3x v3y v3z]. rewrite fneg_val. change (val F32_ZERO) with 0%R. ring.
  - exists (mkV3 F32_ZERO (fneg (v3z u)) (v3y u)), k. split; [reflexivity|]. split; [|split; [exact L|split; [exact Fa|lra]]].
    unfold Rdot3, V3_R. cbn [v3x v3y v3z]. rewrite fneg_val. change (val F32_ZERO) with 0%R. ring.
Qed.

(** ** The polynomials of quaternion.rs are the textbook formulas *)

Ltac tq := unfold T_mul, T_conj, T_qdot, T_rotate, T_mk, T_add, T_scale, T_cross, T_dot, T_vec; rq; cbv zeta; cbn [v3x v3y v3z q0 q1 q2 q3].

Lemma textbook : forall p q v,
  Rq_mul p q = T_mul p q /\ Rq_conj q = T_conj q /\ Rq_dot p q = T_qdot p q /\ Rq_norm q = T_qdot q q /\
  Rq_rotate q v = T_rotate q v.
Proof. intros p q v. repeat split; tq; try ring; f_equal; ring. Qed.

Lemma mul_textbook : forall {E : Env} p q P Q, quat_le p P -> quat_le q Q -> (P * Q <= bpow radix2 120)%R ->
  let r := @q_mul _ arith_f32 p q in let s := T_mul (Q_R p) (Q_R q) in
  let e := (14 * bpow radix2 (-24) * (P * Q) + bpow radix2 (-147))%R in
  near e (q0 r) (q0 s) /\ near e (q1 r) (q1 s) /\ near e (q2 r) (q2 s) /\ near e (q3 r) (q3 s).
Proof. intros E p q P Q. destruct (textbook (Q_R p) (Q_R q) (mkV3 0 0 0)%R) as (A & _). rewrite <- A. apply mul_error. Qed.

Lemma mul_vector_textbook : forall {E : Env} q v Q V, quat_le q Q -> vec_le v V ->
  (Q * Q <= bpow radix2 120)%R -> (V <= bpow radix2 120)%R -> (Q * Q * V <= bpow radix2 120)%R ->
  let r := Q_mul_vector idf q v in let s := T_rotate (Q_R q) (V3_R v) in
  let e := (80 * bpow radix2 (-24) * (Q * Q * V) + bpow radix2 (-145) * (V + 1))%R in
  r = Q_rotate idf q v /\
  near e (v3x r) (v3x s) /\ near e (v3y r) (v3y s) /\ near e (v3z r) (v3z s).
Proof.
  intros E q v Q V. destruct (textbook (Q_R q) (Q_R q) (V3_R v)) as (_ & _ & _ & _ & A). rewrite <- A.
  destruct v as [x y z]. intros. split; [reflexivity|]. exact (rotate_error q (mkV3 x y z) Q V H H0 H1 H2 H3).
Qed.

Lemma dot_textbook : forall {E : Env} p q P Q, quat_le p P -> quat_le q Q -> (P * Q <= bpow radix2 120)%R ->
  near (14 * bpow radix2 (-24) * (P * Q) + bpow radix2 (-147)) (@q_dot _ arith_f32 p q) (T_qdot (Q_R p) (Q_R q)).
Proof.
  intros E p q P Q [(F0 & F1 & F2 & F3) (H0 & H1 & H2 & H3)] [(G0 & G1 & G2 & G3) (K0 & K1 & K2 & K3)] L.
  assert (PQ : (0 <= P * Q)%R).
  { apply Rmult_le_pos; [pose proof (Rabs_pos (val (q0 p)))|pose proof (Rabs_pos (val (q0 q)))]; lra. }
  assert (e147 : (bpow radix2 (-147) = 8 * eta)%R).
  { unfold eta. change (-147) with (3 + -150). rewrite bpow_plus. reflexivity. }
  assert (X : T_qdot (Q_R p) (Q_R q) = (val (q0 p) * val (q0 q) + val (q1 p) * val (q1 q) + val (q2 p) * val (q2 q) + val (q3 p) * val (q3 q))%R).
  { unfold T_qdot, T_dot, T_vec, Q_R. cbn [v3x v3y v3z q0 q1 q2 q3]. ring. }
  assert (T : tr (@q_dot _ arith_f32 p q) (T_qdot (Q_R p) (Q_R q)) (P * Q + P * Q + P * Q + P * Q)
    (14 * bpow radix2 (-24) * (P * Q) + bpow radix2 (-147))).
  { rewrite X, u24_eq, e147. unfold q_dot. cbn [aadd amul arith_f32]. four PQ L. }
  destruct T as (A & _ & B). split; assumption.
Qed.

Lemma same_add : forall {E : Env} a b c d, same a b -> same c d -> same (fadd a c) (fadd b d).
Proof.
  intros E a b c d [<-|[A B]] [<-|[C D]]; [left; reflexivity| | | ]; right; split; apply fadd_nan; tauto.
Qed.

Lemma dot_sym : forall {E : Env} p q, same (@q_dot _ arith_f32 p q) (@q_dot _ arith_f32 q p) /\
  @q_norm _ arith_f32 q = @q_dot _ arith_f32 q q.
Proof.
  intros E p q. split; [|reflexivity]. unfold q_dot. cbn [aadd amul arith_f32]. repeat apply same_add; apply fmul_comm.
Qed.

(** ** Cross products *)

Lemma cross_f32_error : forall {E : Env} u v U V, vec_le u U -> vec_le v V -> (U * V <= bpow radix2 120)%R ->
  exists w, v3_cross (H := comp_f32) u v = Ok w /\
  let s := T_cross (V3_R u) (V3_R v) in let e := (5 * bpow radix2 (-24) * (U * V) + bpow radix2 (-148))%R in
  near e (v3x w) (v3x s) /\ near e (v3y w) (v3y s) /\ near e (v3z w) (v3z s).
Proof.
  intros E u v U V [(F0 & F1 & F2) (H0 & H1 & H2)] [(G0 & G1 & G2) (K0 & K1 & K2)] L.
  assert (e148 : (bpow radix2 (-148) = 4 * eta)%R).
  { unfold eta. change (-148) with (2 + -150). rewrite bpow_plus. reflexivity. }
  pose proof eta_pos.
  eexists. split; [reflexivity|]. cbv zeta. rewrite u24_eq, e148. unfold T_cross, V3_R. cbn [v3x v3y v3z].
  assert (T : forall x X, tr x X (2 * (U * V)) (5 * u24 * (U * V) + 3 * eta) -> near (5 * u24 * (U * V) + 4 * eta) x X).
  { intros x X (A & _ & B). split; [exact A|]. lra. }
  split; [|split]; apply T; apply cross3_tr; assumption.
Qed.

Lemma mul_is_cross : forall {C} `{Component C} (a b : Vector3d C) (v w : Vector2d C),
  v3_mul a b = v3_cross a b /\ v2_mul v w = v2_cross v w.
Proof. split; reflexivity. Qed.

Lemma v3_mul_int : forall {E : Env} t v w c, int_type t -> overflow_checks = true ->
  (v3_mul (H := comp_int t) v w = Ok c <->
   Forall (fits t) [v3y v * v3z w; v3z v * v3y w; v3y v * v3z w - v3z v * v3y w;
                    v3z v * v3x w; v3x v * v3z w; v3z v * v3x w - v3x v * v3z w;
                    v3x v * v3y w; v3y v * v3x w; v3x v * v3y w - v3y v * v3x w] /\
   c = mkV3 (v3y v * v3z w - v3z v * v3y w) (v3z v * v3x w - v3x v * v3z w)
            (v3x v * v3y w - v3y v * v3x w)).
Proof. exact @v3_cross_checked. Qed.

Lemma v2_mul_int : forall {E : Env} t v w, int_type t ->
  (overflow_checks = true -> forall c, v2_mul (H := comp_int t) v w = Ok c <->
     fits t (v2x v * v2y w) /\ fits t (v2y v * v2x w) /\ fits t (v2x v * v2y w - v2y v * v2x w) /\
     c = mkV3 0 0 (v2x v * v2y w - v2y v * v2x w)) /\
  (forall c, v2_mul (H := comp_int t) v w = Ok c ->
     v3x c = 0 /\ v3y c = 0 /\ wraps_to t (v2x v * v2y w - v2y v * v2x w) (v3z c)).
Proof.
  intros E t v w T. unfold v2_mul. rewrite v2_cross_int by exact T. split.
  - intros O c. destruct (v2_perpendicular_dot v w) as [d| |] eqn:D; cbn [res_map].
    + pose proof (proj1 (v2_perp_checked t v w d T O) D) as (A & B & C & ->). split.
      * intros H. injection H as <-. repeat split; try assumption; apply A.
      * intros (_ & _ & _ & ->). reflexivity.
    + split; [discriminate|]. intros (A & B & C & _). exfalso.
      pose proof (proj2 (v2_perp_checked t v w _ T O) (conj A (conj B (conj C eq_refl)))). congruence.
    + split; [discriminate|]. intros (A & B & C & _). exfalso.
      pose proof (proj2 (v2_perp_checked t v w _ T O) (conj A (conj B (conj C eq_refl)))). congruence.
  - intros c. destruct (v2_perpendicular_dot v w) as [d| |] eqn:D; cbn [res_map]; try discriminate.
    intros H. injection H as <-. cbn [v3x v3y v3z]. split; [reflexivity|]. split; [reflexivity|].
    apply v2_perp_eqm; assumption.
Qed.

(** ** normalize keeps the direction *)

Lemma normalize_direction : forall {E : Env} q, Forall sq_ok (q_list q) -> (0 < rsumsq (q_list q) <= bpow radix2 126)%R ->
  exists k, Q_normalize q = Ok (mkQ (fmul (q0 q) k) (fmul (q1 q) k) (fmul (q2 q) k) (fmul (q3 q) k)) /\
    fin k /\ (0 < val k)%R.
Proof.
  intros E q F L. destruct (invsqrt_norm q F L) as (n & I & Nn & _).
  pose proof (quat_norm_approx q F ltac:(lra)) as A.
  destruct (approx_normal 4 _ _ ltac:(lia) A ltac:(lra)) as [N _].
  exists n. unfold Q_normalize. rewrite (feq_zero_normal _ N), I. cbn [bind]. split; [reflexivity|].
  split; [apply Nn|apply normal_pos_gt0; exact Nn].
Qed.
