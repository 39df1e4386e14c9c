(** * Proofs for C123: the laws of quaternion algebra in f32 *)

From Coq Require Import ZArith Reals Bool List Lia Lra Psatz.
From Flocq Require Import Core IEEE754.BinarySingleNaN IEEE754.Binary IEEE754.Bits.
From Verif Require Import Base Spec Float Vector Quaternion F32Lemmas BitLemmas P_Trunc P_Floor Literals ErrLemmas P_RoundEdge NanLemmas
  P_Euclid P_Roots P_SumSq P_VecF32 P_Vector P_InvSqrt P_Recip P_Trig P_Euler QuatReal P_Quat P_Quat2 SpecQuat P_Quat3 P_Quat4.
Import ListNotations.
Open Scope Z_scope.

(** ** Norm bounds over the reals *)

Definition nb (q : Quat R) (B : R) : Prop := (0 <= B /\ Rq_norm q <= B * B)%R.
Definition comps (q : Quat R) (e : R) : Prop := (Rabs (q0 q) <= e /\ Rabs (q1 q) <= e /\ Rabs (q2 q) <= e /\ Rabs (q3 q) <= e)%R.
Definition qsub (p q : Quat R) : Quat R := mkQ (q0 p - q0 q)%R (q1 p - q1 q)%R (q2 p - q2 q)%R (q3 p - q3 q)%R.

Lemma norm_eq : forall q, Rq_norm q = (q0 q * q0 q + q1 q * q1 q + q2 q * q2 q + q3 q * q3 q)%R.
Proof. reflexivity. Qed.

Lemma norm_pos : forall q, (0 <= Rq_norm q)%R.
Proof.
  intros q. rewrite norm_eq. pose proof (Rle_0_sqr (q0 q)). pose proof (Rle_0_sqr (q1 q)). pose proof (Rle_0_sqr (q2 q)). pose proof (Rle_0_sqr (q3 q)). unfold Rsqr in *. lra.
Qed.

Lemma sq_le0 : forall a b, (0 <= b)%R -> (a * a <= b * b)%R -> (a <= b)%R.
Proof. intros a b B H. destruct (Rle_or_lt a b) as [L|L]; [exact L|]. exfalso. nra. Qed.

Lemma sq_abs0 : forall a b, (0 <= b)%R -> (a * a <= b * b)%R -> (Rabs a <= b)%R.
Proof. intros a b B H. apply Rabs_le. split; [apply Ropp_le_cancel; rewrite Ropp_involutive|]; apply sq_le0; trivial. replace (- a * - a)%R with (a * a)%R by ring. exact H. Qed.

Lemma nb_comp : forall q B, nb q B -> comps q B.
Proof.
  intros q B [P H]. rewrite norm_eq in H. pose proof (Rle_0_sqr (q0 q)). pose proof (Rle_0_sqr (q1 q)). pose proof (Rle_0_sqr (q2 q)). pose proof (Rle_0_sqr (q3 q)). unfold Rsqr in *.
  repeat split; apply sq_abs0; trivial; lra.
Qed.

Lemma comps_nb : forall q e, comps q e -> nb q (2 * e).
Proof.
  intros q e (A & B & C & D). assert (0 <= e)%R by (pose proof (Rabs_pos (q0 q)); lra). split; [lra|]. rewrite norm_eq.
  assert (S : forall r, (Rabs r <= e -> r * r <= e * e)%R).
  { intros r H1. replace (r * r)%R with (Rabs r * Rabs r)%R by (rewrite <- Rabs_mult; apply Rabs_pos_eq, Rle_0_sqr). apply Rmult_le_compat; trivial; apply Rabs_pos. }
  apply S in A. apply S in B. apply S in C. apply S in D. lra.
Qed.

Lemma comps_w : forall q e f, comps q e -> (e <= f)%R -> comps q f.
Proof. intros q e f (A & B & C & D) H. repeat split; lra. Qed.

Lemma nb_mul : forall p q P Q, nb p P -> nb q Q -> nb (Rq_mul p q) (P * Q).
Proof.
  intros p q P Q [P0 HP] [Q0 HQ]. split; [apply Rmult_le_pos; assumption|]. rewrite Rq_norm_mul.
  replace (P * Q * (P * Q))%R with ((P * P) * (Q * Q))%R by ring. apply Rmult_le_compat; trivial; apply norm_pos.
Qed.

Lemma nb_w : forall q B C, nb q B -> (B <= C)%R -> nb q C.
Proof. intros q B C [B0 H] L. split; [lra|]. eapply Rle_trans; [exact H|]. apply Rmult_le_compat; assumption. Qed.

Lemma nb_conj : forall q B, nb q B -> nb (Rq_conj q) B.
Proof. intros q B [B0 H]. split; [exact B0|]. replace (Rq_norm (Rq_conj q)) with (Rq_norm q); [exact H|]. destruct q. unfold Rq_norm, Rq_conj, q_norm, q_conj. cbn. ring. Qed.

Lemma nb_near : forall p q Q e, nb q Q -> comps (qsub p q) e -> nb p (Q + 2 * e).
Proof.
  intros p q Q e [Q0 HQ] C. destruct (comps_nb _ _ C) as [E0 HE]. split; [lra|]. set (d := qsub p q) in *.
  assert (D : (q0 q * q0 d + q1 q * q1 d + q2 q * q2 d + q3 q * q3 d <= Q * (2 * e))%R).
  { apply sq_le0; [apply Rmult_le_pos; lra|]. replace (Q * (2 * e) * (Q * (2 * e)))%R with ((Q * Q) * (2 * e * (2 * e)))%R by ring.
    apply Rle_trans with (Rq_norm q * Rq_norm d)%R; [|apply Rmult_le_compat; trivial; apply norm_pos]. rewrite !norm_eq.
    pose proof (Rle_0_sqr (q0 q * q1 d - q1 q * q0 d)). pose proof (Rle_0_sqr (q0 q * q2 d - q2 q * q0 d)). pose proof (Rle_0_sqr (q0 q * q3 d - q3 q * q0 d)).
    pose proof (Rle_0_sqr (q1 q * q2 d - q2 q * q1 d)). pose proof (Rle_0_sqr (q1 q * q3 d - q3 q * q1 d)). pose proof (Rle_0_sqr (q2 q * q3 d - q3 q * q2 d)). unfold Rsqr in *. lra. }
  replace (Rq_norm p) with (Rq_norm q + Rq_norm d + 2 * (q0 q * q0 d + q1 q * q1 d + q2 q * q2 d + q3 q * q3 d))%R.
  - lra.
  - rewrite !norm_eq. unfold d, qsub. cbn [q0 q1 q2 q3]. ring.
Qed.

Lemma qsub_mul_l : forall p p' q, qsub (Rq_mul p q) (Rq_mul p' q) = Rq_mul (qsub p p') q.
Proof. intros [a b c d] [a' b' c' d'] [x y z w]. unfold qsub, Rq_mul, q_mul. cbn. f_equal; ring. Qed.
Lemma qsub_mul_r : forall p q q', qsub (Rq_mul p q) (Rq_mul p q') = Rq_mul p (qsub q q').
Proof. intros [a b c d] [a' b' c' d'] [x y z w]. unfold qsub, Rq_mul, q_mul. cbn. f_equal; ring. Qed.
Lemma qsub_conj : forall p q, Rq_conj (qsub p q) = qsub (Rq_conj p) (Rq_conj q).
Proof. intros [a b c d] [a' b' c' d']. unfold qsub, Rq_conj, q_conj. cbn. f_equal; ring. Qed.

Lemma comps_trans : forall p q r e f, comps (qsub p q) e -> comps (qsub q r) f -> comps (qsub p r) (e + f).
Proof.
  intros p q r e f (A & B & C & D) (A' & B' & C' & D'). unfold qsub in *. cbn [q0 q1 q2 q3] in *.
  assert (T : forall x y z, (Rabs (x - y) <= e -> Rabs (y - z) <= f -> Rabs (x - z) <= e + f)%R).
  { intros x y z H1 H2. replace (x - z)%R with ((x - y) + (y - z))%R by ring. pose proof (Rabs_triang (x - y) (y - z)). lra. }
  repeat split; cbn [q0 q1 q2 q3]; [apply (T _ (q0 q))|apply (T _ (q1 q))|apply (T _ (q2 q))|apply (T _ (q3 q))]; assumption.
Qed.
Lemma comps_sym : forall p q e, comps (qsub p q) e -> comps (qsub q p) e.
Proof. intros p q e (A & B & C & D). unfold qsub in *. cbn [q0 q1 q2 q3] in *. repeat split; cbn [q0 q1 q2 q3]; rewrite Rabs_minus_sym; assumption. Qed.

(** ** One f32 product *)

Lemma tiny_u : (bpow radix2 (-147) <= 0.001 * u24 /\ bpow radix2 (-145) <= 0.001 * u24)%R.
Proof.
  assert (bpow radix2 (-145) <= 0.001 * u24)%R.
  { apply Rle_trans with (bpow radix2 (-34)); [apply bpow_le; lia|]. rewrite <- u24_eq. change (-34) with (-10 + -24). rewrite bpow_plus. pose proof (bpow_gt_0 radix2 (-24)).
    change (bpow radix2 (-10)) with (/ 1024)%R. lra. }
  split; [|assumption]. apply Rle_trans with (bpow radix2 (-145)); [apply bpow_le; lia|assumption].
Qed.

Lemma nb_quat_le : forall q B, fin_quat q -> nb (Q_R q) B -> quat_le q B.
Proof. intros q B F N. apply nb_comp in N. destruct N as (A & B' & C & D). split; [exact F|]. repeat split; assumption. Qed.

Lemma one_mul : forall a b, (1 <= a)%R -> (1 <= b)%R -> (1 <= a * b)%R.
Proof. intros a b A B. replace 1%R with (1 * 1)%R by ring. apply Rmult_le_compat; lra. Qed.

Lemma mul_step : forall {E : Env} p q P Q, fin_quat p -> fin_quat q -> nb (Q_R p) P -> nb (Q_R q) Q -> (1 <= P * Q <= bpow radix2 120)%R ->
  fin_quat (@q_mul _ arith_f32 p q) /\ comps (qsub (Q_R (@q_mul _ arith_f32 p q)) (Rq_mul (Q_R p) (Q_R q))) (14.001 * u24 * (P * Q)).
Proof.
  intros E p q P Q Fp Fq Np Nq L.
  destruct (mul_error p q P Q (nb_quat_le p P Fp Np) (nb_quat_le q Q Fq Nq) ltac:(lra)) as ((F0 & A0) & (F1 & A1) & (F2 & A2) & (F3 & A3)). cbv zeta in *. rewrite u24_eq in *.
  destruct tiny_u as [T _]. assert (U : (0 < u24)%R) by (unfold u24; lra).
  assert (e : (14 * u24 * (P * Q) + bpow radix2 (-147) <= 14.001 * u24 * (P * Q))%R) by nra.
  split; [exact (conj F0 (conj F1 (conj F2 F3)))|]. unfold qsub. repeat split; cbn [q0 q1 q2 q3 Q_R]; (eapply Rle_trans; [eassumption|exact e]).
Qed.

(** ** Associativity *)

Lemma quat_near : forall a b e, fin_quat a -> comps (qsub (Q_R a) (Q_R b)) e ->
  near e (q0 a) (val (q0 b)) /\ near e (q1 a) (val (q1 b)) /\ near e (q2 a) (val (q2 b)) /\ near e (q3 a) (val (q3 b)).
Proof.
  intros a b e (Z0 & Z1 & Z2 & Z3) (W0 & W1 & W2 & W3). unfold qsub in W0, W1, W2, W3. cbn [q0 q1 q2 q3 Q_R] in W0, W1, W2, W3.
  exact (conj (conj Z0 W0) (conj (conj Z1 W1) (conj (conj Z2 W2) (conj Z3 W3)))).
Qed.

Lemma mul_assoc_f32 : forall {E : Env} p q r P Q R', fin_quat p -> fin_quat q -> fin_quat r ->
  (T_qdot (Q_R p) (Q_R p) <= P * P)%R -> (T_qdot (Q_R q) (Q_R q) <= Q * Q)%R -> (T_qdot (Q_R r) (Q_R r) <= R' * R')%R ->
  (1 <= P <= bpow radix2 30)%R -> (1 <= Q <= bpow radix2 30)%R -> (1 <= R' <= bpow radix2 30)%R ->
  let a := @q_mul _ arith_f32 (@q_mul _ arith_f32 p q) r in let b := @q_mul _ arith_f32 p (@q_mul _ arith_f32 q r) in
  let e := (85 * bpow radix2 (-24) * (P * Q * R'))%R in
  fin_quat a /\ near e (q0 a) (val (q0 b)) /\ near e (q1 a) (val (q1 b)) /\ near e (q2 a) (val (q2 b)) /\ near e (q3 a) (val (q3 b)).
Proof.
  cbv zeta. intros E p q r P Q R' Fp Fq Fr Hp Hq Hr BP BQ BR. rewrite u24_eq.
  assert (U : (0 < u24 < / 10000000)%R) by (unfold u24; lra).
  assert (TQ : forall x, T_qdot x x = Rq_norm x) by (intros x; rewrite norm_eq; unfold T_qdot, T_dot, T_vec; cbn [v3x v3y v3z]; ring).
  rewrite TQ in Hp, Hq, Hr.
  assert (Np : nb (Q_R p) P) by (split; [lra|exact Hp]). assert (Nq : nb (Q_R q) Q) by (split; [lra|exact Hq]). assert (Nr : nb (Q_R r) R') by (split; [lra|exact Hr]).
  assert (BB : forall x y, (1 <= x <= bpow radix2 30 -> 1 <= y <= bpow radix2 30 -> 1 <= x * y <= bpow radix2 60)%R).
  { intros x y X Y. split; [apply one_mul; lra|]. change 60 with (30 + 30). rewrite bpow_plus. apply Rmult_le_compat; lra. }
  pose proof (BB P Q BP BQ) as PQ. pose proof (BB Q R' BQ BR) as QR.
  assert (L120 : (2 * bpow radix2 60 * bpow radix2 30 <= bpow radix2 120)%R).
  { change 2%R with (bpow radix2 1). rewrite <- !bpow_plus. apply bpow_le. lia. }
  assert (L60 : (bpow radix2 60 <= bpow radix2 120)%R) by (apply bpow_le; lia).
  assert (C1 : forall X Y, (1 <= X <= bpow radix2 60 -> 1 <= Y <= bpow radix2 30 -> 1 <= (X + 2 * (14.001 * u24 * X)) * Y <= bpow radix2 120)%R).
  { intros X Y HX HY. assert (S : (X <= X + 2 * (14.001 * u24 * X) <= 2 * X)%R) by nra. split; [apply one_mul; lra|].
    eapply Rle_trans; [|exact L120]. apply Rmult_le_compat; lra. }
  (* (pq) r *)
  destruct (mul_step p q P Q Fp Fq Np Nq ltac:(lra)) as [F1 D1]. remember (@q_mul _ arith_f32 p q) as s eqn:HS.
  pose proof (nb_near _ _ _ _ (nb_mul _ _ _ _ Np Nq) D1) as Ns.
  destruct (mul_step s r _ R' F1 Fr Ns Nr (C1 _ _ PQ BR)) as [F2 D2].
  pose proof (nb_comp _ _ (nb_mul _ _ _ _ (comps_nb _ _ D1) Nr)) as D3. rewrite <- qsub_mul_l in D3.
  pose proof (comps_trans _ _ _ _ _ D2 D3) as DA.
  (* p (qr) *)
  destruct (mul_step q r Q R' Fq Fr Nq Nr ltac:(lra)) as [G1 E1]. remember (@q_mul _ arith_f32 q r) as t eqn:HT.
  pose proof (nb_near _ _ _ _ (nb_mul _ _ _ _ Nq Nr) E1) as Nt.
  assert (C2 : (1 <= P * (Q * R' + 2 * (14.001 * u24 * (Q * R'))) <= bpow radix2 120)%R) by (rewrite Rmult_comm; apply C1; assumption).
  destruct (mul_step p t P _ Fp G1 Np Nt C2) as [G2 E2].
  pose proof (nb_comp _ _ (nb_mul _ _ _ _ Np (comps_nb _ _ E1))) as E3. rewrite <- qsub_mul_r in E3.
  pose proof (comps_trans _ _ _ _ _ E2 E3) as DB.
  rewrite Rq_mul_assoc in DA. pose proof (comps_trans _ _ _ _ _ DA (comps_sym _ _ _ DB)) as D.
  split; [exact F2|]. apply quat_near; [exact F2|].
  { eapply comps_w; [exact D|]. set (S := (P * Q * R')%R). replace ((P * Q + 2 * (14.001 * u24 * (P * Q))) * R')%R with (S + 28.002 * (u24 * S))%R by (unfold S; lra).
    replace (2 * (14.001 * u24 * (P * Q)) * R')%R with (28.002 * (u24 * S))%R by (unfold S; lra).
    replace (P * (Q * R' + 2 * (14.001 * u24 * (Q * R'))))%R with (S + 28.002 * (u24 * S))%R by (unfold S; lra).
    replace (P * (2 * (14.001 * u24 * (Q * R'))))%R with (28.002 * (u24 * S))%R by (unfold S; lra).
    assert (S1 : (1 <= S)%R) by (apply one_mul; lra). replace (85 * u24 * S)%R with (85 * (u24 * S))%R by ring.
    replace (14.001 * u24 * (S + 28.002 * (u24 * S)))%R with (14.001 * (u24 * S) + 14.001 * 28.002 * (u24 * (u24 * S)))%R by ring.
    assert (US : (0 < u24 * S)%R) by (apply Rmult_lt_0_compat; lra). assert (UUS : (u24 * (u24 * S) <= / 10000000 * (u24 * S))%R) by (apply Rmult_le_compat_r; lra). lra. }
Qed.

(** ** Rotation *)

Lemma T_qdot_norm : forall x, T_qdot x x = Rq_norm x.
Proof. intros x. rewrite norm_eq. unfold T_qdot, T_dot, T_vec. cbn [v3x v3y v3z]. ring. Qed.

Lemma T_dot_norm : forall v, T_dot v v = Rq_norm (Rq_vec v).
Proof. intros v. rewrite norm_eq. unfold T_dot, Rq_vec. cbn [q0 q1 q2 q3]. ring. Qed.

Lemma conj_step : forall {E : Env} q, fin_quat q -> fin_quat (@q_conj _ arith_f32 q) /\ Q_R (@q_conj _ arith_f32 q) = Rq_conj (Q_R q).
Proof.
  intros E q (A & B & C & D). split.
  - exact (conj A (conj (fneg_fin _ B) (conj (fneg_fin _ C) (fneg_fin _ D)))).
  - unfold Q_R, q_conj, Rq_conj. cbn [q_conj q0 q1 q2 q3 aneg arith_f32 arith_R]. rewrite !fneg_val. reflexivity.
Qed.

(** The sandwich q v q*. *)
Definition sand (q v : Quat R) : Quat R := Rq_mul (Rq_mul q v) (Rq_conj q).

Lemma sand_rotate : forall q v, sand q (Rq_vec v) = Rq_vec (Rq_rotate q v).
Proof. intros q v. apply Rq_rotate_is_conjugation. Qed.

Lemma nb_sand : forall q v Q V, nb q Q -> nb v V -> nb (sand q v) (Q * V * Q).
Proof. intros q v Q V A B. unfold sand. apply nb_mul; [apply nb_mul; assumption|apply nb_conj; exact A]. Qed.

Lemma sand_diff_v : forall q v w, qsub (sand q v) (sand q w) = sand q (qsub v w).
Proof. intros q v w. unfold sand. rewrite qsub_mul_l, qsub_mul_r. reflexivity. Qed.

Lemma sand_diff_q : forall p q v P Q V e, nb p P -> nb q Q -> nb v V -> comps (qsub p q) e ->
  comps (qsub (sand p v) (sand q v)) (2 * e * V * (P + Q)).
Proof.
  intros p q v P Q V e Np Nq Nv D. pose proof (comps_nb _ _ D) as ND.
  pose proof (nb_comp _ _ (nb_mul _ _ _ _ (nb_mul _ _ _ _ ND Nv) (nb_conj _ _ Np))) as H1.
  pose proof (nb_comp _ _ (nb_mul _ _ _ _ (nb_mul _ _ _ _ Nq Nv) (nb_conj _ _ ND))) as H2.
  rewrite <- qsub_mul_l in H1. rewrite <- qsub_mul_l in H1. rewrite qsub_conj, <- qsub_mul_r in H2.
  pose proof (comps_trans _ _ _ _ _ H1 H2) as H. eapply comps_w; [exact H|]. apply Req_le. ring.
Qed.

Lemma rot_step : forall {E : Env} q v Q V, fin_quat q -> fin_vec v -> nb (Q_R q) Q -> nb (Rq_vec (V3_R v)) V -> (1 <= Q)%R -> (1 <= V)%R -> (Q * V * Q <= bpow radix2 120)%R ->
  fin_vec (@q_rotate _ arith_f32 q v) /\ comps (qsub (Rq_vec (V3_R (@q_rotate _ arith_f32 q v))) (sand (Q_R q) (Rq_vec (V3_R v)))) (80.01 * u24 * (Q * V * Q)).
Proof.
  intros E q v Q V Fq Fv Nq Nv Q1 V1 L. pose proof (nb_comp _ _ Nv) as (_ & X & Y & Z). cbn [Rq_vec q1 q2 q3 V3_R v3x v3y v3z] in X, Y, Z.
  assert (QQ : (1 <= Q * Q)%R) by (apply one_mul; lra). assert (QV : (1 <= Q * V)%R) by (apply one_mul; lra).
  assert (E1 : (Q * Q * V = Q * V * Q)%R) by ring. assert (L1 : (Q * Q <= Q * Q * V)%R) by nra. assert (L2 : (V <= Q * Q * V)%R) by nra.
  destruct (rotate_error q v Q V (nb_quat_le _ _ Fq Nq) (conj Fv (conj X (conj Y Z))) ltac:(lra) ltac:(lra) ltac:(lra)) as ((F0 & A0) & (F1 & A1) & (F2 & A2)). cbv zeta in *.
  rewrite u24_eq in *. destruct tiny_u as [_ T]. assert (U : (0 < u24)%R) by (unfold u24; lra).
  assert (e : (80 * u24 * (Q * Q * V) + bpow radix2 (-145) * (V + 1) <= 80.01 * u24 * (Q * V * Q))%R).
  { rewrite E1. assert (bpow radix2 (-145) * (V + 1) <= (0.001 * u24) * (2 * (Q * V * Q)))%R; [|assert (0 <= u24 * (Q * V * Q))%R by (apply Rmult_le_pos; lra); lra]. apply Rmult_le_compat; try lra. apply bpow_ge_0. }
  split; [exact (conj F0 (conj F1 F2))|]. rewrite sand_rotate. unfold qsub.
  assert (e0 : (0 <= 80.01 * u24 * (Q * V * Q))%R) by (rewrite <- E1; apply Rmult_le_pos; lra).
  repeat split; cbn [q0 q1 q2 q3 Rq_vec V3_R v3x v3y v3z]; [rewrite Rminus_0_r, Rabs_R0; exact e0| | |]; (eapply Rle_trans; [eassumption|exact e]).
Qed.

Lemma vec_near : forall (r : Vector3d f32) s e, fin_vec r -> comps (qsub (Rq_vec (V3_R r)) (Rq_vec s)) e ->
  near e (v3x r) (v3x s) /\ near e (v3y r) (v3y s) /\ near e (v3z r) (v3z s).
Proof. intros r s e (F0 & F1 & F2) (_ & A & B & C). unfold qsub in A, B, C. cbn [q1 q2 q3 Rq_vec V3_R v3x v3y v3z] in A, B, C. exact (conj (conj F0 A) (conj (conj F1 B) (conj F2 C))). Qed.

(** Two rotations one after the other, against the exact double sandwich. *)
Lemma rot2_step : forall {E : Env} p q v P Q V, fin_quat p -> fin_quat q -> fin_vec v -> nb (Q_R p) P -> nb (Q_R q) Q -> nb (Rq_vec (V3_R v)) V ->
  (1 <= P <= bpow radix2 20)%R -> (1 <= Q <= bpow radix2 20)%R -> (1 <= V <= bpow radix2 20)%R ->
  let w := @q_rotate _ arith_f32 q v in let r := @q_rotate _ arith_f32 p w in
  fin_vec w /\ fin_vec r /\ comps (qsub (Rq_vec (V3_R r)) (sand (Q_R p) (sand (Q_R q) (Rq_vec (V3_R v))))) (241 * u24 * (P * P * (Q * Q) * V)).
Proof.
  cbv zeta. intros E p q v P Q V Fp Fq Fv Np Nq Nv BP BQ BV. assert (U : (0 < u24 < / 10000000)%R) by (unfold u24; lra).
  assert (b40 : forall x y, (1 <= x <= bpow radix2 20 -> 1 <= y <= bpow radix2 20 -> 1 <= x * y <= bpow radix2 40)%R).
  { intros x y X Y. split; [apply one_mul; lra|]. change 40 with (20 + 20). rewrite bpow_plus. apply Rmult_le_compat; lra. }
  pose proof (b40 Q V BQ BV) as QV. pose proof (b40 P P BP BP) as PP.
  assert (QVQ : (1 <= Q * V * Q <= bpow radix2 60)%R).
  { split; [apply one_mul; lra|]. change 60 with (40 + 20). rewrite bpow_plus. apply Rmult_le_compat; lra. }
  assert (L60 : (2 * bpow radix2 60 * bpow radix2 40 <= bpow radix2 120)%R).
  { change 2%R with (bpow radix2 1). rewrite <- !bpow_plus. apply bpow_le. lia. }
  assert (L60' : (bpow radix2 60 <= bpow radix2 120)%R) by (apply bpow_le; lia).
  destruct (rot_step q v Q V Fq Fv Nq Nv ltac:(lra) ltac:(lra) ltac:(lra)) as [Fw Dw]. remember (@q_rotate _ arith_f32 q v) as w eqn:HW.
  pose proof (nb_near _ _ _ _ (nb_sand _ _ _ _ Nq Nv) Dw) as Nw. set (S := (Q * V * Q)%R) in *.
  assert (S2 : (S <= S + 2 * (80.01 * u24 * S) <= 2 * S)%R) by nra.
  assert (C2 : (P * (S + 2 * (80.01 * u24 * S)) * P <= bpow radix2 120)%R).
  { eapply Rle_trans; [|exact L60]. replace (P * (S + 2 * (80.01 * u24 * S)) * P)%R with ((S + 2 * (80.01 * u24 * S)) * (P * P))%R by ring. apply Rmult_le_compat; lra. }
  destruct (rot_step p w P _ Fp Fw Np Nw ltac:(lra) ltac:(lra) C2) as [Fr Dr].
  pose proof (nb_comp _ _ (nb_sand _ _ _ _ Np (comps_nb _ _ Dw))) as D3. rewrite <- sand_diff_v in D3.
  pose proof (comps_trans _ _ _ _ _ Dr D3) as D. split; [exact Fw|]. split; [exact Fr|]. eapply comps_w; [exact D|].
  set (M := (P * P * (Q * Q) * V)%R). replace (P * (S + 2 * (80.01 * u24 * S)) * P)%R with (M + 160.02 * (u24 * M))%R by (unfold M, S; lra).
  replace (P * (2 * (80.01 * u24 * S)) * P)%R with (160.02 * (u24 * M))%R by (unfold M, S; lra).
  assert (M1 : (1 <= M)%R) by (unfold M; apply one_mul; [apply one_mul; [lra|apply one_mul; lra]|lra]).
  assert (UM : (0 < u24 * M)%R) by (apply Rmult_lt_0_compat; lra). assert (UUM : (u24 * (u24 * M) <= / 10000000 * (u24 * M))%R) by (apply Rmult_le_compat_r; lra).
  replace (80.01 * u24 * (M + 160.02 * (u24 * M)))%R with (80.01 * (u24 * M) + 80.01 * 160.02 * (u24 * (u24 * M)))%R by lra. lra.
Qed.

Lemma rotate_compose_f32 : forall {E : Env} p q v P Q V, fin_quat p -> fin_quat q -> fin_vec v ->
  (T_qdot (Q_R p) (Q_R p) <= P * P)%R -> (T_qdot (Q_R q) (Q_R q) <= Q * Q)%R -> (T_dot (V3_R v) (V3_R v) <= V * V)%R ->
  (1 <= P <= bpow radix2 20)%R -> (1 <= Q <= bpow radix2 20)%R -> (1 <= V <= bpow radix2 20)%R ->
  let a := @q_rotate _ arith_f32 (@q_mul _ arith_f32 p q) v in let b := @q_rotate _ arith_f32 p (@q_rotate _ arith_f32 q v) in
  let e := (380 * bpow radix2 (-24) * (P * P * (Q * Q) * V))%R in
  fin_vec b /\ near e (v3x a) (val (v3x b)) /\ near e (v3y a) (val (v3y b)) /\ near e (v3z a) (val (v3z b)).
Proof.
  cbv zeta. intros E p q v P Q V Fp Fq Fv Hp Hq Hv BP BQ BV. rewrite u24_eq. rewrite T_qdot_norm in Hp, Hq. rewrite T_dot_norm in Hv.
  assert (U : (0 < u24 < / 10000000)%R) by (unfold u24; lra).
  assert (Np : nb (Q_R p) P) by (split; [lra|exact Hp]). assert (Nq : nb (Q_R q) Q) by (split; [lra|exact Hq]). assert (Nv : nb (Rq_vec (V3_R v)) V) by (split; [lra|exact Hv]).
  destruct (rot2_step p q v P Q V Fp Fq Fv Np Nq Nv BP BQ BV) as (Fw & Fb & Db). cbv zeta in *. remember (@q_rotate _ arith_f32 p (@q_rotate _ arith_f32 q v)) as b eqn:HB.
  assert (PQ : (1 <= P * Q <= bpow radix2 40)%R).
  { split; [apply one_mul; lra|]. change 40 with (20 + 20). rewrite bpow_plus. apply Rmult_le_compat; lra. }
  assert (L40 : (bpow radix2 40 <= bpow radix2 120)%R) by (apply bpow_le; lia).
  destruct (mul_step p q P Q Fp Fq Np Nq ltac:(lra)) as [Fs Ds]. remember (@q_mul _ arith_f32 p q) as s eqn:HS.
  set (X := (P * Q)%R) in *. pose proof (nb_near _ _ _ _ (nb_mul _ _ _ _ Np Nq) Ds) as Ns. fold X in Ns.
  assert (X2 : (X <= X + 2 * (14.001 * u24 * X) <= 2 * X)%R) by nra.
  assert (L4 : (2 * bpow radix2 40 * bpow radix2 20 * (2 * bpow radix2 40) <= bpow radix2 120)%R).
  { change 2%R with (bpow radix2 1). rewrite <- !bpow_plus. apply bpow_le. lia. }
  assert (C2 : ((X + 2 * (14.001 * u24 * X)) * V * (X + 2 * (14.001 * u24 * X)) <= bpow radix2 120)%R).
  { eapply Rle_trans; [|exact L4]. apply Rmult_le_compat; try lra; [apply Rmult_le_pos; lra|]. apply Rmult_le_compat; lra. }
  destruct (rot_step s v _ V Fs Fv Ns Nv ltac:(lra) ltac:(lra) C2) as [Fa Da]. remember (@q_rotate _ arith_f32 s v) as a eqn:HA.
  pose proof (sand_diff_q _ _ _ _ _ _ _ Ns (nb_mul _ _ _ _ Np Nq) Nv Ds) as D1. fold X in D1.
  assert (SM : sand (Rq_mul (Q_R p) (Q_R q)) (Rq_vec (V3_R v)) = sand (Q_R p) (sand (Q_R q) (Rq_vec (V3_R v)))).
  { rewrite !sand_rotate. rewrite Rq_rotate_mul. reflexivity. }
  rewrite SM in D1. pose proof (comps_trans _ _ _ _ _ (comps_trans _ _ _ _ _ Da D1) (comps_sym _ _ _ Db)) as D.
  split; [exact Fb|]. apply (vec_near a (V3_R b)); [exact Fa|]. eapply comps_w; [exact D|].
  set (M := (P * P * (Q * Q) * V)%R). assert (XM : (X * V * X = M)%R) by (unfold M, X; ring).
  assert (M1 : (1 <= M)%R) by (rewrite <- XM; apply one_mul; [apply one_mul; lra|lra]).
  assert (UM : (0 < u24 * M)%R) by (apply Rmult_lt_0_compat; lra). assert (UUM : (u24 * (u24 * M) <= / 10000000 * (u24 * M))%R) by (apply Rmult_le_compat_r; lra).
  assert (UUUM : (u24 * (u24 * (u24 * M)) <= / 10000000 * (u24 * (u24 * M)))%R) by (apply Rmult_le_compat_r; [apply Rmult_le_pos; lra|lra]).
  replace (80.01 * u24 * ((X + 2 * (14.001 * u24 * X)) * V * (X + 2 * (14.001 * u24 * X))))%R
    with (80.01 * (u24 * M) + 80.01 * 56.004 * (u24 * (u24 * M)) + 80.01 * 28.002 * 28.002 * (u24 * (u24 * (u24 * M))))%R by (rewrite <- XM; lra).
  replace (2 * (14.001 * u24 * X) * V * (X + 2 * (14.001 * u24 * X) + X))%R with (56.004 * (u24 * M) + 28.002 * 28.002 * (u24 * (u24 * M)))%R by (rewrite <- XM; lra).
  lra.
Qed.

(** ** Rotating back with the conjugate *)

Lemma rotate_back_f32 : forall {E : Env} q v Q V, fin_quat q -> fin_vec v ->
  (T_qdot (Q_R q) (Q_R q) <= Q * Q)%R -> (T_dot (V3_R v) (V3_R v) <= V * V)%R ->
  (1 <= Q <= bpow radix2 20)%R -> (1 <= V <= bpow radix2 20)%R ->
  let b := @q_rotate _ arith_f32 (@q_conj _ arith_f32 q) (@q_rotate _ arith_f32 q v) in
  let e := (241 * bpow radix2 (-24) * (Q * Q * (Q * Q) * V))%R in let N := T_qdot (Q_R q) (Q_R q) in
  near e (v3x b) (N * N * val (v3x v)) /\ near e (v3y b) (N * N * val (v3y v)) /\ near e (v3z b) (N * N * val (v3z v)).
Proof.
  cbv zeta. intros E q v Q V Fq Fv Hq Hv BQ BV. rewrite u24_eq. rewrite T_qdot_norm in *. rewrite T_dot_norm in Hv.
  destruct (conj_step q Fq) as [Fc Ec].
  assert (Nq : nb (Q_R q) Q) by (split; [lra|exact Hq]). assert (Nv : nb (Rq_vec (V3_R v)) V) by (split; [lra|exact Hv]).
  assert (Nc : nb (Q_R (@q_conj _ arith_f32 q)) Q) by (rewrite Ec; apply nb_conj, Nq).
  destruct (rot2_step (@q_conj _ arith_f32 q) q v Q Q V Fc Fq Fv Nc Nq Nv BQ BQ BV) as (Fw & Fb & Db). cbv zeta in *. remember (@q_rotate _ arith_f32 (@q_conj _ arith_f32 q) (@q_rotate _ arith_f32 q v)) as b eqn:HB. rewrite Ec in Db.
  rewrite !sand_rotate in Db. apply (vec_near b) in Db; [|exact Fb].
  assert (R2 : Rq_rotate (Rq_conj (Q_R q)) (Rq_rotate (Q_R q) (V3_R v)) = Rscale3 (Rq_norm (Q_R q) * Rq_norm (Q_R q)) (V3_R v)).
  { rewrite <- Rq_rotate_mul. rewrite (proj2 (Rq_mul_conj _)). destruct (Q_R q) as [x y z w], (V3_R v) as [i j k]. rq. }
  rewrite R2 in Db. unfold Rscale3 in Db. cbn [v3x v3y v3z V3_R] in Db. exact Db.
Qed.

(** ** Lengths and angles *)

Lemma dot_diff : forall a b c d A B e f, nb a A -> nb c B -> comps (qsub b a) e -> comps (qsub d c) f ->
  (Rabs (T_qdot b d - T_qdot a c) <= 2 * e * B + A * (2 * f) + 2 * e * (2 * f))%R.
Proof.
  intros a b c d A B e f Na Nc D1 D2. pose proof (comps_nb _ _ D1) as N1. pose proof (comps_nb _ _ D2) as N2.
  assert (CS : forall x y X Y, nb x X -> nb y Y -> (Rabs (T_qdot x y) <= X * Y)%R).
  { intros x y X Y [X0 HX] [Y0 HY]. apply sq_abs0; [apply Rmult_le_pos; assumption|]. replace (X * Y * (X * Y))%R with ((X * X) * (Y * Y))%R by ring.
    apply Rle_trans with (Rq_norm x * Rq_norm y)%R; [|apply Rmult_le_compat; trivial; apply norm_pos]. rewrite !norm_eq. unfold T_qdot, T_dot, T_vec. cbn [v3x v3y v3z].
    pose proof (Rle_0_sqr (q0 x * q1 y - q1 x * q0 y)). pose proof (Rle_0_sqr (q0 x * q2 y - q2 x * q0 y)). pose proof (Rle_0_sqr (q0 x * q3 y - q3 x * q0 y)).
    pose proof (Rle_0_sqr (q1 x * q2 y - q2 x * q1 y)). pose proof (Rle_0_sqr (q1 x * q3 y - q3 x * q1 y)). pose proof (Rle_0_sqr (q2 x * q3 y - q3 x * q2 y)). unfold Rsqr in *. lra. }
  replace (T_qdot b d - T_qdot a c)%R with (T_qdot (qsub b a) c + T_qdot a (qsub d c) + T_qdot (qsub b a) (qsub d c))%R
    by (unfold T_qdot, T_dot, T_vec, qsub; cbn [q0 q1 q2 q3 v3x v3y v3z]; ring).
  pose proof (CS _ _ _ _ N1 Nc). pose proof (CS _ _ _ _ Na N2). pose proof (CS _ _ _ _ N1 N2).
  eapply Rle_trans; [apply Rabs_triang|]. apply Rplus_le_compat; [|lra]. eapply Rle_trans; [apply Rabs_triang|]. lra.
Qed.

Lemma norm_arith : forall X d t1 t2, (1 <= X)%R ->
  (Rabs (d - t1) <= 14 * u24 * ((X + 2 * (14.001 * u24 * X)) * (X + 2 * (14.001 * u24 * X))) + bpow radix2 (-147))%R ->
  (Rabs (t1 - t2) <= 2 * (14.001 * u24 * X) * X + X * (2 * (14.001 * u24 * X)) + 2 * (14.001 * u24 * X) * (2 * (14.001 * u24 * X)))%R ->
  (Rabs (d - t2) <= 71 * u24 * (X * X))%R.
Proof.
  intros X d t1 t2 X1 Dd D. assert (U : (0 < u24 < / 10000000)%R) by (unfold u24; lra). destruct tiny_u as [T _].
  set (M := (X * X)%R). assert (M1 : (1 <= M)%R) by (apply one_mul; lra).
  assert (UM : (0 < u24 * M)%R) by (apply Rmult_lt_0_compat; lra). assert (UUM : (u24 * (u24 * M) <= / 10000000 * (u24 * M))%R) by (apply Rmult_le_compat_r; lra).
  assert (UUUM : (u24 * (u24 * (u24 * M)) <= / 10000000 * (u24 * (u24 * M)))%R) by (apply Rmult_le_compat_r; [apply Rmult_le_pos; lra|lra]).
  replace (d - t2)%R with ((d - t1) + (t1 - t2))%R by ring.
  eapply Rle_trans; [apply Rabs_triang|].
  replace (14 * u24 * ((X + 2 * (14.001 * u24 * X)) * (X + 2 * (14.001 * u24 * X))))%R
    with (14 * (u24 * M) + 14 * 56.004 * (u24 * (u24 * M)) + 14 * 28.002 * 28.002 * (u24 * (u24 * (u24 * M))))%R in Dd by (unfold M; lra).
  replace (2 * (14.001 * u24 * X) * X + X * (2 * (14.001 * u24 * X)) + 2 * (14.001 * u24 * X) * (2 * (14.001 * u24 * X)))%R
    with (56.004 * (u24 * M) + 28.002 * 28.002 * (u24 * (u24 * M)))%R in D by (unfold M; lra).
  assert (0.001 * u24 <= 0.001 * (u24 * M))%R by nra. lra.
Qed.

Lemma norm_dot : forall {E : Env} (s : Quat f32), @q_norm _ arith_f32 s = @q_dot _ arith_f32 s s.
Proof. reflexivity. Qed.

Lemma norm_mul_f32 : forall {E : Env} p q P Q, fin_quat p -> fin_quat q ->
  (T_qdot (Q_R p) (Q_R p) <= P * P)%R -> (T_qdot (Q_R q) (Q_R q) <= Q * Q)%R ->
  (1 <= P <= bpow radix2 20)%R -> (1 <= Q <= bpow radix2 20)%R ->
  near (71 * bpow radix2 (-24) * (P * P * (Q * Q))) (@q_norm _ arith_f32 (@q_mul _ arith_f32 p q)) (T_qdot (Q_R p) (Q_R p) * T_qdot (Q_R q) (Q_R q)).
Proof.
  intros E p q P Q Fp Fq Hp Hq BP BQ. rewrite T_qdot_norm in Hp, Hq. assert (U : (0 < u24 < / 10000000)%R) by (unfold u24; lra).
  assert (Np : nb (Q_R p) P) by (split; [lra|exact Hp]). assert (Nq : nb (Q_R q) Q) by (split; [lra|exact Hq]).
  assert (PQ : (1 <= P * Q <= bpow radix2 40)%R).
  { split; [apply one_mul; lra|]. change 40 with (20 + 20). rewrite bpow_plus. apply Rmult_le_compat; lra. }
  assert (L40 : (bpow radix2 40 <= bpow radix2 120)%R) by (apply bpow_le; lia).
  destruct (mul_step p q P Q Fp Fq Np Nq ltac:(lra)) as [Fs Ds]. remember (@q_mul _ arith_f32 p q) as s eqn:HS.
  pose proof (dot_diff _ _ _ _ _ _ _ _ (nb_mul _ _ _ _ Np Nq) (nb_mul _ _ _ _ Np Nq) Ds Ds) as D.
  pose proof (nb_near _ _ _ _ (nb_mul _ _ _ _ Np Nq) Ds) as Ns. set (X := (P * Q)%R) in *.
  assert (X2 : (X <= X + 2 * (14.001 * u24 * X) <= 2 * X)%R) by nra.
  assert (L4 : (2 * bpow radix2 40 * (2 * bpow radix2 40) <= bpow radix2 120)%R).
  { change 2%R with (bpow radix2 1). rewrite <- !bpow_plus. apply bpow_le. lia. }
  destruct (dot_textbook s s _ _ (nb_quat_le _ _ Fs Ns) (nb_quat_le _ _ Fs Ns)) as [Fd Dd].
  { eapply Rle_trans; [|exact L4]. apply Rmult_le_compat; lra. }
  rewrite norm_dot. remember (@q_dot _ arith_f32 s s) as d eqn:HD. clear HD. split; [exact Fd|].
  rewrite !T_qdot_norm. rewrite <- Rq_norm_mul, <- T_qdot_norm. rewrite u24_eq in *.
  replace (P * P * (Q * Q))%R with (X * X)%R by (unfold X; ring). exact (norm_arith X _ _ _ (proj1 PQ) Dd D).
Qed.

Lemma rotate_isometry_f32 : forall {E : Env} q u v Q Vu Vv, fin_quat q -> fin_vec u -> fin_vec v ->
  (T_qdot (Q_R q) (Q_R q) <= Q * Q)%R -> (T_dot (V3_R u) (V3_R u) <= Vu * Vu)%R -> (T_dot (V3_R v) (V3_R v) <= Vv * Vv)%R ->
  (1 <= Q <= bpow radix2 20)%R -> (1 <= Vu <= bpow radix2 20)%R -> (1 <= Vv <= bpow radix2 20)%R ->
  let a := @q_rotate _ arith_f32 q u in let b := @q_rotate _ arith_f32 q v in let N := T_qdot (Q_R q) (Q_R q) in
  fin_vec a /\ fin_vec b /\
  (Rabs (T_dot (V3_R a) (V3_R b) - N * N * T_dot (V3_R u) (V3_R v)) <= 321 * bpow radix2 (-24) * (Q * Q * (Q * Q) * (Vu * Vv)))%R.
Proof.
  cbv zeta. intros E q u v Q Vu Vv Fq Fu Fv Hq Hu Hv BQ BU BV. rewrite u24_eq. rewrite T_qdot_norm in *. rewrite T_dot_norm in Hu, Hv.
  assert (U : (0 < u24 < / 10000000)%R) by (unfold u24; lra).
  assert (Nq : nb (Q_R q) Q) by (split; [lra|exact Hq]). assert (Nu : nb (Rq_vec (V3_R u)) Vu) by (split; [lra|exact Hu]). assert (Nv : nb (Rq_vec (V3_R v)) Vv) by (split; [lra|exact Hv]).
  assert (S60 : forall V, (1 <= V <= bpow radix2 20 -> 1 <= Q * V * Q <= bpow radix2 120)%R).
  { intros V HV. split; [apply one_mul; [apply one_mul; lra|lra]|]. apply Rle_trans with (bpow radix2 20 * bpow radix2 20 * bpow radix2 20)%R.
    - apply Rmult_le_compat; try lra; [apply Rmult_le_pos; lra|]. apply Rmult_le_compat; lra.
    - rewrite <- !bpow_plus. apply bpow_le. lia. }
  pose proof (S60 Vu BU) as SU. pose proof (S60 Vv BV) as SV.
  destruct (rot_step q u Q Vu Fq Fu Nq Nu ltac:(lra) ltac:(lra) ltac:(lra)) as [Fa Da]. destruct (rot_step q v Q Vv Fq Fv Nq Nv ltac:(lra) ltac:(lra) ltac:(lra)) as [Fb Db].
  remember (@q_rotate _ arith_f32 q u) as a eqn:HA. remember (@q_rotate _ arith_f32 q v) as b eqn:HB. split; [exact Fa|]. split; [exact Fb|].
  pose proof (dot_diff _ _ _ _ _ _ _ _ (nb_sand _ _ _ _ Nq Nu) (nb_sand _ _ _ _ Nq Nv) Da Db) as D. rewrite !sand_rotate in D.
  assert (TV : forall x y, T_qdot (Rq_vec x) (Rq_vec y) = Rdot3 x y) by (intros x y; unfold T_qdot, T_dot, T_vec, Rq_vec, Rdot3; cbn [q0 q1 q2 q3 v3x v3y v3z]; ring).
  rewrite !TV, Rq_rotate_dot in D. change Rdot3 with T_dot in D. eapply Rle_trans; [exact D|].
  set (A := (Q * Vu * Q)%R) in *. set (B := (Q * Vv * Q)%R) in *. set (M := (Q * Q * (Q * Q) * (Vu * Vv))%R). assert (AB : (A * B = M)%R) by (unfold A, B, M; ring).
  assert (M1 : (1 <= M)%R) by (rewrite <- AB; apply one_mul; lra).
  assert (UM : (0 < u24 * M)%R) by (apply Rmult_lt_0_compat; lra). assert (UUM : (u24 * (u24 * M) <= / 10000000 * (u24 * M))%R) by (apply Rmult_le_compat_r; lra).
  replace (2 * (80.01 * u24 * A) * B + A * (2 * (80.01 * u24 * B)) + 2 * (80.01 * u24 * A) * (2 * (80.01 * u24 * B)))%R
    with (320.04 * (u24 * M) + 160.02 * 160.02 * (u24 * (u24 * M)))%R by (rewrite <- AB; lra). lra.
Qed.

(** ** A quaternion times its inverse *)

Lemma rsumsq_norm : forall q, rsumsq (q_list q) = Rq_norm (Q_R q).
Proof. intros q. rewrite norm_eq. unfold rsumsq, q_list. cbn [fold_right q0 q1 q2 q3 Q_R]. ring. Qed.

Lemma scaled_step : forall {E : Env} q k K, fin_quat q -> fin k -> (0 <= K)%R -> quat_le q K -> (Rabs (val k) * K <= bpow radix2 120)%R ->
  fin_quat (@q_scale _ arith_f32 q k) /\
  comps (qsub (Q_R (@q_scale _ arith_f32 q k)) (Rq_scale (Q_R q) (val k))) (u24 * (Rabs (val k) * K) + bpow radix2 (-150)).
Proof.
  intros E q k K Fq Fk K0 [_ (A0 & A1 & A2 & A3)] L.
  assert (G : forall x, fin x -> (Rabs (val x) <= K)%R -> fin (fmul x k) /\ (Rabs (val (fmul x k) - val x * val k) <= u24 * (Rabs (val k) * K) + bpow radix2 (-150))%R).
  { intros x Fx Hx. assert (M : (Rabs (val x * val k) <= Rabs (val k) * K)%R).
    { rewrite Rabs_mult, Rmult_comm. apply Rmult_le_compat_l; [apply Rabs_pos|exact Hx]. }
    destruct (fmul_R x k Fx Fk) as [F V].
    { apply (small_lt_128 120); [lia|]. lra. }
    split; [exact F|]. rewrite V. eapply Rle_trans; [apply rnd_err_mixed|]. rewrite u24_eq. apply Rplus_le_compat_r. apply Rmult_le_compat_l; [unfold u24; lra|exact M]. }
  destruct Fq as (F0 & F1 & F2 & F3). destruct (G _ F0 A0) as [X0 Y0]. destruct (G _ F1 A1) as [X1 Y1]. destruct (G _ F2 A2) as [X2 Y2]. destruct (G _ F3 A3) as [X3 Y3].
  split; [exact (conj X0 (conj X1 (conj X2 X3)))|]. exact (conj Y0 (conj Y1 (conj Y2 Y3))).
Qed.

Lemma inv_parts : forall {E : Env} q, Forall sq_ok (q_list q) -> (0 < rsumsq (q_list q) <= bpow radix2 125)%R ->
  exists k, Q_inv q = Ok (@q_scale _ arith_f32 (@q_conj _ arith_f32 q) k) /\ fin k /\ (0 < val k)%R /\ (1 - / 1000000 <= val k * rsumsq (q_list q) <= 1.12501)%R.
Proof.
  intros E q F L. assert (D : (bpow radix2 126 = 2 * bpow radix2 125)%R) by (change 126 with (1 + 125); rewrite bpow_plus; reflexivity).
  pose proof (quat_norm_approx q F ltac:(lra)) as A.
  destruct (approx_normal 4 _ _ ltac:(lia) A ltac:(lra)) as [Ns B]. unfold Q_inv. rewrite (feq_zero_normal _ Ns).
  remember (@q_norm _ arith_f32 q) as s eqn:HS. set (N := rsumsq (q_list q)) in *. destruct (inv_accuracy s Ns) as [Nk Hk]; [lra|].
  exists (F32_inv s). split; [reflexivity|]. pose proof (normal_pos_gt0 _ Nk) as k0. split; [exact (proj1 Nk)|]. split; [exact k0|].
  assert (val (F32_inv s) * ((1 - / 2000000) * N) <= val (F32_inv s) * val s)%R by (apply Rmult_le_compat_l; lra).
  assert (val (F32_inv s) * val s <= val (F32_inv s) * ((1 + / 2000000) * N))%R by (apply Rmult_le_compat_l; lra). lra.
Qed.

Lemma mul_inv_f32 : forall {E : Env} q, Forall sq_ok (q_list q) -> (bpow radix2 (-80) <= T_qdot (Q_R q) (Q_R q) <= bpow radix2 80)%R ->
  exists r, Q_inv q = Ok r /\ let p := @q_mul _ arith_f32 q r in
    fin_quat p /\ (0.999997 <= val (q0 p) <= 1.12502)%R /\
    (Rabs (val (q1 p)) <= 0.0000012)%R /\ (Rabs (val (q2 p)) <= 0.0000012)%R /\ (Rabs (val (q3 p)) <= 0.0000012)%R.
Proof.
  intros E q F L. cbv zeta. rewrite T_qdot_norm in L. pose proof (bpow_gt_0 radix2 (-80)) as p80. assert (l125 : (bpow radix2 80 <= bpow radix2 125)%R) by (apply bpow_le; lia).
  rewrite <- rsumsq_norm in L. destruct (inv_parts q F ltac:(lra)) as (k & I & Fk & k0 & kN). rewrite rsumsq_norm in L, kN.
  rewrite I. eexists. split; [reflexivity|].
  assert (Fq : fin_quat q).
  { unfold q_list in F. rewrite Forall_forall in F. repeat split; (apply F; cbn [In]; tauto). }
  destruct (conj_step q Fq) as [Fc Ec]. remember (@q_conj _ arith_f32 q) as c eqn:HC.
  set (N := Rq_norm (Q_R q)) in *. set (n := sqrt N). assert (n2 : (n * n = N)%R) by (apply sqrt_sqrt; lra). 
  assert (n0 : (bpow radix2 (-40) <= n <= bpow radix2 40)%R).
  { split; apply sq_le0; try apply bpow_ge_0; try apply sqrt_pos; rewrite n2, <- bpow_plus; [exact (proj1 L)|exact (proj2 L)]. }
  pose proof (bpow_gt_0 radix2 (-40)) as p40. assert (Nq : nb (Q_R q) n) by (split; [lra|fold N; lra]).
  assert (Nc : nb (Q_R c) n) by (rewrite Ec; apply nb_conj, Nq).
  set (T := (val k * n)%R). assert (Tn : (n * T = val k * N)%R) by (unfold T; rewrite <- n2; ring). assert (T0 : (0 < T)%R) by (apply Rmult_lt_0_compat; lra).
  assert (TU : (T <= 2 * bpow radix2 40)%R).
  { apply Rmult_le_reg_l with n; [lra|]. rewrite Tn. assert (1 <= n * bpow radix2 40)%R; [|lra].
    apply Rle_trans with (bpow radix2 (-40) * bpow radix2 40)%R; [rewrite <- bpow_plus; apply Rle_refl|]. apply Rmult_le_compat_r; [apply bpow_ge_0|lra]. }
  assert (l41 : (2 * bpow radix2 40 <= bpow radix2 120)%R) by (change 2%R with (bpow radix2 1); rewrite <- bpow_plus; apply bpow_le; lia).
  destruct (scaled_step c k n Fc Fk ltac:(lra) (nb_quat_le _ _ Fc Nc)) as [Fr Dr].
  { rewrite Rabs_pos_eq by lra. fold T. lra. }
  rewrite (Rabs_pos_eq (val k)) in Dr by lra. fold T in Dr. remember (@q_scale _ arith_f32 c k) as r eqn:HR.
  assert (Nk : nb (Rq_scale (Q_R c) (val k)) T).
  { split; [lra|]. replace (Rq_norm (Rq_scale (Q_R c) (val k))) with (val k * val k * Rq_norm (Q_R c))%R by (rewrite !norm_eq; unfold Rq_scale, q_scale; cbn [q0 q1 q2 q3 amul arith_R]; ring).
    unfold T. replace (val k * n * (val k * n))%R with (val k * val k * (n * n))%R by ring. apply Rmult_le_compat_l; [apply Rle_0_sqr|exact (proj2 Nc)]. }
  pose proof (nb_near _ _ _ _ Nk Dr) as Nr. assert (U : (0 < u24 < / 10000000)%R) by (unfold u24; lra).
  set (eta := bpow radix2 (-150)) in *. assert (e0 : (0 <= eta)%R) by apply bpow_ge_0.
  assert (ne : (n * eta <= 0.001 * u24)%R).
  { apply Rle_trans with (bpow radix2 40 * eta)%R; [apply Rmult_le_compat_r; lra|]. unfold eta. rewrite <- bpow_plus. rewrite <- u24_eq.
    apply Rle_trans with (bpow radix2 (-34)); [apply bpow_le; lia|]. change (-34) with (-10 + -24). rewrite bpow_plus. pose proof (bpow_gt_0 radix2 (-24)). change (bpow radix2 (-10)) with (/ 1024)%R. lra. }
  assert (ip : (0 < / n)%R) by (apply Rinv_0_lt_compat; lra).
  assert (Nr' : nb (Q_R r) (1.2 * / n)).
  { eapply nb_w; [exact Nr|]. apply Rmult_le_reg_l with n; [lra|]. replace (n * (1.2 * / n))%R with 1.2%R by (field; lra).
    replace (n * (T + 2 * (u24 * T + eta)))%R with (n * T + 2 * (u24 * (n * T)) + 2 * (n * eta))%R by ring. rewrite Tn.
    assert (u24 * (val k * N) <= / 10000000 * 1.12501)%R by (apply Rmult_le_compat; lra). lra. }
  assert (PQ : (n * (1.2 * / n) = 1.2)%R) by (field; lra).
  assert (l12 : (1.2 <= bpow radix2 120)%R) by (apply Rle_trans with (bpow radix2 1); [change (bpow radix2 1) with 2%R; lra|apply bpow_le; lia]).
  destruct (mul_step q r n _ Fq Fr Nq Nr' ltac:(rewrite PQ; lra)) as [Fp Dp]. rewrite PQ in Dp. split; [exact Fp|]. remember (@q_mul _ arith_f32 q r) as p eqn:HP.
  pose proof (nb_comp _ _ (nb_mul _ _ _ _ Nq (comps_nb _ _ Dr))) as D2. rewrite <- qsub_mul_r in D2.
  pose proof (comps_trans _ _ _ _ _ Dp D2) as D. clear Dp D2. rewrite Ec, (proj2 (Rq_mul_scale _ _ _)), (proj1 (Rq_mul_conj _)) in D. fold N in D.
  assert (B : (14.001 * u24 * 1.2 + n * (2 * (u24 * T + eta)) <= 0.0000012)%R).
  { replace (n * (2 * (u24 * T + eta)))%R with (2 * (u24 * (n * T)) + 2 * (n * eta))%R by ring. rewrite Tn.
    assert (u24 * (val k * N) <= u24 * 1.12501)%R by (apply Rmult_le_compat_l; lra). unfold u24 in *. lra. }
  destruct D as (D0 & D1 & D2 & D3). unfold qsub, Rq_scale, q_scale, Rq_one in D0, D1, D2, D3. cbn [q0 q1 q2 q3 Q_R amul arith_R] in D0, D1, D2, D3.
  rewrite !Rmult_0_l, Rminus_0_r in D1, D2, D3. apply Rabs_le_inv in D0. repeat split; lra.
Qed.

(** ** Two turns about the same axis *)

Lemma same_axis : forall ca sa cb sb w, Rq_mul (T_mk ca (T_scale sa w)) (T_mk cb (T_scale sb w)) =
  T_mk (ca * cb - sa * sb * T_dot w w)%R (T_scale (sa * cb + ca * sb)%R w).
Proof. intros ca sa cb sb [x y z]. unfold T_mk, T_scale, T_dot, Rq_mul, q_mul. cbn [q0 q1 q2 q3 v3x v3y v3z aadd asub amul arith_R]. f_equal; ring. Qed.

Lemma same_axis_near : forall r ca sa cb sb (v : Vector3d f32) e, fin_quat r -> (-1 <= sa <= 1)%R -> (-1 <= sb <= 1)%R -> (e <= 0.00769)%R ->
  (Rabs (T_dot (V3_R v) (V3_R v) - 1) <= 0.00001)%R ->
  comps (qsub (Q_R r) (T_mk (ca * cb - sa * sb * T_dot (V3_R v) (V3_R v))%R (T_scale (sa * cb + ca * sb)%R (V3_R v)))) e ->
  near 0.0077 (q0 r) (ca * cb - sa * sb) /\ near 0.0077 (q1 r) (val (v3x v) * (sa * cb + ca * sb)) /\
  near 0.0077 (q2 r) (val (v3y v) * (sa * cb + ca * sb)) /\ near 0.0077 (q3 r) (val (v3z v) * (sa * cb + ca * sb)).
Proof.
  intros r ca sa cb sb v e (F0 & F1 & F2 & F3) Sa Sb He Uv (D0 & D1 & D2 & D3).
  unfold qsub, T_mk, T_scale, V3_R in D0, D1, D2, D3. cbn [q0 q1 q2 q3 v3x v3y v3z Q_R] in D0, D1, D2, D3. fold (V3_R v) in D0.
  assert (SS : (Rabs (sa * sb * (T_dot (V3_R v) (V3_R v) - 1)) <= 0.00001)%R).
  { rewrite Rabs_mult. assert (Rabs (sa * sb) <= 1)%R.
    { rewrite Rabs_mult. replace 1%R with (1 * 1)%R by ring. apply Rmult_le_compat; try apply Rabs_pos; apply Rabs_le; lra. }
    apply Rle_trans with (1 * 0.00001)%R; [|lra]. apply Rmult_le_compat; trivial; apply Rabs_pos. }
  set (w := T_dot (V3_R v) (V3_R v)) in *. rewrite (Rmult_comm _ (val (v3x v))) in D1. rewrite (Rmult_comm _ (val (v3y v))) in D2. rewrite (Rmult_comm _ (val (v3z v))) in D3.
  split; [split; [exact F0|]|split; [split; [exact F1|lra]|split; [split; [exact F2|lra]|split; [exact F3|lra]]]].
  replace (val (q0 r) - (ca * cb - sa * sb))%R with ((val (q0 r) - (ca * cb - sa * sb * w)) + - (sa * sb * (w - 1)))%R by ring.
  eapply Rle_trans; [apply Rabs_triang|]. rewrite Rabs_Ropp. lra.
Qed.

Lemma axis_angle_add : forall {E : Env} v a b, fin_vec v -> fin a -> fin b -> (Rabs (val a) <= 8192)%R -> (Rabs (val b) <= 8192)%R ->
  (Rabs (T_dot (V3_R v) (V3_R v) - 1) <= 0.00001)%R ->
  let p := @q_mul _ arith_f32 (Q_axis_angle (fun x => x) v a) (Q_axis_angle (fun x => x) v b) in let t := ((val a + val b) / 2)%R in
  near 0.0077 (q0 p) (cos t) /\ near 0.0077 (q1 p) (val (v3x v) * sin t) /\ near 0.0077 (q2 p) (val (v3y v) * sin t) /\ near 0.0077 (q3 p) (val (v3z v) * sin t).
Proof.
  intros E v a b Fv Fa Fb Ba Bb Uv. cbv zeta.
  assert (AX : forall t, fin t -> (Rabs (val t) <= 8192)%R -> let q := Q_axis_angle (fun x => x) v t in let i := T_mk (cos (val t / 2)) (T_scale (sin (val t / 2)) (V3_R v)) in
    fin_quat q /\ comps (qsub (Q_R q) i) 0.0019 /\ nb (Q_R q) 1.0034 /\ nb i 1.00001).
  { intros t Ft Bt. cbv zeta. destruct Fv as (F0 & F1 & F2).
    destruct (axis_angle_acc (fun x => x) v t F0 F1 F2 Ft Bt Uv) as ((G0 & N0) & (G1 & N1) & (G2 & N2) & (G3 & N3) & NN). cbv zeta in *. cbv beta in *.
    remember (Q_axis_angle (fun x => x) v t) as q eqn:HQ. split; [exact (conj G0 (conj G1 (conj G2 G3)))|]. split; [|split].
    - unfold qsub, T_mk, T_scale. repeat split; cbn [q0 q1 q2 q3 Q_R V3_R v3x v3y v3z]; [lra| | |]; rewrite (Rmult_comm (sin _)); assumption.
    - split; [lra|]. rewrite <- rsumsq_norm. apply Rabs_le_inv in NN. lra.
    - split; [lra|]. rewrite norm_eq. unfold T_mk, T_scale. cbn [q0 q1 q2 q3 v3x v3y v3z]. pose proof (sin2_cos2 (val t / 2)) as SC. unfold Rsqr in SC.
      set (c := cos (val t / 2)) in *. set (s := sin (val t / 2)) in *. unfold T_dot in Uv. set (w := V3_R v) in *.
      replace (c * c + s * v3x w * (s * v3x w) + s * v3y w * (s * v3y w) + s * v3z w * (s * v3z w))%R with (1 + s * s * ((v3x w * v3x w + v3y w * v3y w + v3z w * v3z w) - 1))%R.
      + assert (S1 : (0 <= s * s <= 1)%R) by (split; [apply Rle_0_sqr|pose proof (Rle_0_sqr c); unfold Rsqr in *; lra]).
        apply Rabs_le_inv in Uv. nra.
      + replace (c * c)%R with (1 - s * s)%R by lra. ring. }
  destruct (AX a Fa Ba) as (Fp & Dp & Np & Ip). destruct (AX b Fb Bb) as (Fq & Dq & Nq & Iq). clear AX.
  remember (Q_axis_angle (fun x => x) v a) as p eqn:HP. remember (Q_axis_angle (fun x => x) v b) as q eqn:HQ.
  destruct (mul_step p q _ _ Fp Fq Np Nq) as [Fr Dr].
  { split; [lra|]. apply Rle_trans with (bpow radix2 1); [change (bpow radix2 1) with 2%R; lra|apply bpow_le; lia]. }
  remember (@q_mul _ arith_f32 p q) as r eqn:HR.
  set (ia := T_mk (cos (val a / 2)) (T_scale (sin (val a / 2)) (V3_R v))) in *. set (ib := T_mk (cos (val b / 2)) (T_scale (sin (val b / 2)) (V3_R v))) in *.
  pose proof (nb_comp _ _ (nb_mul _ _ _ _ (comps_nb _ _ Dp) Nq)) as H1. rewrite <- qsub_mul_l in H1.
  pose proof (nb_comp _ _ (nb_mul _ _ _ _ Ip (comps_nb _ _ Dq))) as H2. rewrite <- qsub_mul_r in H2.
  pose proof (comps_trans _ _ _ _ _ (comps_trans _ _ _ _ _ Dr H1) H2) as D. clear H1 H2 Dr.
  replace ((val a + val b) / 2)%R with (val a / 2 + val b / 2)%R by field. rewrite cos_plus, sin_plus. unfold ia, ib in D. rewrite same_axis in D.
  apply (same_axis_near r _ _ _ _ v _ Fr (SIN_bound _) (SIN_bound _)) in D; [exact D| |exact Uv].
  assert (u : (0 < u24 < / 10000000)%R) by (unfold u24; lra). lra.
Qed.

(** ** The laws are not exact *)

Lemma lt_of_bits : forall x y, fin x -> fin y -> flt x y = true -> (val x < val y)%R.
Proof. intros x y Fx Fy H. rewrite flt_R in H by assumption. destruct (Rlt_bool_spec (val x) (val y)); [assumption|discriminate]. Qed.

Lemma assoc_broken : forall {E : Env}, exists p q r : Quat f32, fin_quat p /\ fin_quat q /\ fin_quat r /\
  val (q0 (@q_mul _ arith_f32 (@q_mul _ arith_f32 p q) r)) <> val (q0 (@q_mul _ arith_f32 p (@q_mul _ arith_f32 q r))).
Proof.
  intros E. set (k := fun n => mkQ (f32_of_Z n) (f32_of_Z 0) (f32_of_Z 0) (f32_of_Z 0)). exists (k 4097), (k 4097), (k 4099).
  repeat split; try reflexivity. unfold val. apply Rlt_not_eq.
  set (x := q0 (@q_mul _ arith_f32 (@q_mul _ arith_f32 (k 4097) (k 4097)) (k 4099))). set (y := q0 (@q_mul _ arith_f32 (k 4097) (@q_mul _ arith_f32 (k 4097) (k 4099)))).
  change (val x < val y)%R. apply lt_of_bits; vm_compute; reflexivity.
Qed.

Lemma compose_broken : forall {E : Env}, exists (p q : Quat f32) v, fin_quat p /\ fin_quat q /\ fin_vec v /\
  val (v3x (@q_rotate _ arith_f32 (@q_mul _ arith_f32 p q) v)) <> val (v3x (@q_rotate _ arith_f32 p (@q_rotate _ arith_f32 q v))).
Proof.
  intros E. set (z := f32_of_Z). exists (mkQ (z 4097) (z 0) (z 1) (z 2)), (mkQ (z 4099) (z 3) (z 0) (z 1)), (mkV3 (z 3) (z 5) (z 7)).
  repeat split; try reflexivity. unfold val. apply Rgt_not_eq.
  set (x := v3x (@q_rotate _ arith_f32 (@q_mul _ arith_f32 (mkQ (z 4097) (z 0) (z 1) (z 2)) (mkQ (z 4099) (z 3) (z 0) (z 1))) (mkV3 (z 3) (z 5) (z 7)))).
  set (y := v3x (@q_rotate _ arith_f32 (mkQ (z 4097) (z 0) (z 1) (z 2)) (@q_rotate _ arith_f32 (mkQ (z 4099) (z 3) (z 0) (z 1)) (mkV3 (z 3) (z 5) (z 7))))).
  change (val y < val x)%R. apply lt_of_bits; vm_compute; reflexivity.
Qed.
