(** * Proofs for C104: the direction of from_two_vectors *)

From Coq Require Import ZArith Reals Bool List Lia Lra.
From Flocq Require Import Core IEEE754.Binary IEEE754.Bits.
From Verif Require Import Base Spec Float Vector Quaternion F32Lemmas BitLemmas P_Trunc P_Floor Literals ErrLemmas P_RoundEdge
  NanLemmas P_Euclid P_Roots P_InvSqrt P_Recip P_Vector P_VecInt P_SumSq P_VecF32 P_Stats QuatReal P_Quat P_Quat2 SpecQuat P_Quat3.
Import ListNotations.
Open Scope Z_scope.

(** ** The exact construction with any real part n + u.v *)

Lemma between_general : forall n u v,
  T_rotate (T_mk (n + T_dot u v) (T_cross u v)) u =
  T_add (T_scale (n * n - T_dot u u * T_dot v v) u) (T_scale (2 * (n + T_dot u v) * T_dot u u) v).
Proof.
  intros n [a b c] [d e f]. unfold T_rotate, T_mk, T_add, T_scale, T_cross, T_dot, T_vec. cbn [v3x v3y v3z q0 q1 q2 q3].
  f_equal; ring.
Qed.

Lemma between_norm_general : forall n u v, let b := T_mk (n + T_dot u v) (T_cross u v) in
  T_qdot b b = (n * n + 2 * n * T_dot u v + T_dot u u * T_dot v v)%R.
Proof.
  intros n [a b c] [d e f]. unfold T_qdot, T_mk, T_cross, T_dot, T_vec. cbn [v3x v3y v3z q0 q1 q2 q3]. ring.
Qed.

Lemma lagrange_R : forall u v, (T_dot (T_cross u v) (T_cross u v) = T_dot u u * T_dot v v - T_dot u v * T_dot u v)%R.
Proof. intros [a b c] [d e f]. unfold T_cross, T_dot. cbn [v3x v3y v3z]. ring. Qed.

Lemma dot_nonneg : forall u, (0 <= T_dot u u)%R.
Proof.
  intros [a b c]. unfold T_dot. cbn [v3x v3y v3z].
  pose proof (Rle_0_sqr a). pose proof (Rle_0_sqr b). pose proof (Rle_0_sqr c). unfold Rsqr in *. lra.
Qed.
Lemma norm3_sq : forall u, (norm3 u * norm3 u = T_dot u u)%R.
Proof. intros u. apply sqrt_sqrt, dot_nonneg. Qed.
Lemma norm3_nonneg : forall u, (0 <= norm3 u)%R.
Proof. intros u. apply sqrt_pos. Qed.
Lemma comp_le_norm : forall u, (Rabs (v3x u) <= norm3 u /\ Rabs (v3y u) <= norm3 u /\ Rabs (v3z u) <= norm3 u)%R.
Proof.
  intros [a b c]. unfold norm3, T_dot. cbn [v3x v3y v3z].
  pose proof (Rle_0_sqr a). pose proof (Rle_0_sqr b). pose proof (Rle_0_sqr c).
  split; [|split]; rewrite <- sqrt_Rsqr_abs; apply sqrt_le_1_alt; unfold Rsqr in *; lra.
Qed.
Lemma vec_le_norm : forall u, fin_vec u -> vec_le u (norm3 (V3_R u)).
Proof. intros u F. split; [exact F|]. exact (comp_le_norm (V3_R u)). Qed.

Lemma dot_le_norm : forall u v, (Rabs (T_dot u v) <= norm3 u * norm3 v)%R.
Proof.
  intros u v.
  apply Rsqr_incr_0; [|apply Rabs_pos|apply Rmult_le_pos; apply norm3_nonneg].
  rewrite <- Rsqr_abs. unfold Rsqr.
  replace (norm3 u * norm3 v * (norm3 u * norm3 v))%R with ((norm3 u * norm3 u) * (norm3 v * norm3 v))%R by ring.
  rewrite !norm3_sq. pose proof (dot_nonneg (T_cross u v)) as H. rewrite lagrange_R in H. lra.
Qed.

(** ** Step A: n *)


Lemma eta_le : forall r, (bpow radix2 (-110) <= r)%R -> (eta <= / 1099511627776 * r)%R.
Proof.
  intros r H. unfold eta. change (-150) with (-40 + -110). rewrite bpow_plus.
  change (bpow radix2 (-40)) with (/ 1099511627776)%R. apply Rmult_le_compat_l; lra.
Qed.

Lemma self_dot : forall {E : Env} u, fin_vec u -> (bpow radix2 (-25) <= norm3 (V3_R u) <= bpow radix2 29)%R ->
  fin (dot3 u u) /\ ((1 - 10 * u24) * T_dot (V3_R u) (V3_R u) <= val (dot3 u u) <= (1 + 10 * u24) * T_dot (V3_R u) (V3_R u))%R /\
  (bpow radix2 (-50) <= T_dot (V3_R u) (V3_R u) <= bpow radix2 58)%R.
Proof.
  intros E u F L. pose proof (vec_le_norm u F) as V. pose proof (norm3_sq (V3_R u)) as S. set (a := norm3 (V3_R u)) in *.
  assert (B : (bpow radix2 (-50) <= a * a <= bpow radix2 58)%R).
  { pose proof (bpow_gt_0 radix2 (-25)).
    change (-50) with (-25 + -25). change 58 with (29 + 29). rewrite !bpow_plus. split; apply Rmult_le_compat; lra. }
  assert (B2 : (a * a <= bpow radix2 120)%R) by (eapply Rle_trans; [apply B|apply bpow_le; lia]).
  destruct (dot3_tr u u a a V V B2) as (Fd & _ & Ed).
  change (val (v3x u) * val (v3x u) + val (v3y u) * val (v3y u) + val (v3z u) * val (v3z u))%R with (T_dot (V3_R u) (V3_R u)) in Ed.
  rewrite <- S in *. split; [exact Fd|]. split; [|exact B].
  assert (eta <= / 1099511627776 * (a * a))%R.
  { apply eta_le. eapply Rle_trans; [|apply B]. apply bpow_le. lia. }
  apply Rabs_le_inv in Ed. pose proof eta_pos. unfold u24 in *. lra.
Qed.

Lemma n_uv_bounds : forall {E : Env} u v, fin_vec u -> fin_vec v ->
  (bpow radix2 (-25) <= norm3 (V3_R u) <= bpow radix2 29)%R -> (bpow radix2 (-25) <= norm3 (V3_R v) <= bpow radix2 29)%R ->
  exists n, F32_sqrt (fmul (dot3 u u) (dot3 v v)) = Ok n /\ fin n /\
  ((1 - 16 * u24) * (norm3 (V3_R u) * norm3 (V3_R v)) <= val n <= 1.0607 * (norm3 (V3_R u) * norm3 (V3_R v)))%R.
Proof.
  intros E u v Fu Fv Lu Lv.
  destruct (self_dot u Fu Lu) as (Fa & Ba & Ra). destruct (self_dot v Fv Lv) as (Fb & Bb & Rb).
  rewrite <- norm3_sq in Ba, Ra. rewrite <- norm3_sq in Bb, Rb.
  pose proof (norm3_nonneg (V3_R u)) as a0. pose proof (norm3_nonneg (V3_R v)) as b0.
  set (a := norm3 (V3_R u)) in *. set (b := norm3 (V3_R v)) in *. set (p := dot3 u u) in *. set (q := dot3 v v) in *.
  clearbody a b p q.
  set (N := (a * b)%R).
  assert (NN : (N * N = (a * a) * (b * b))%R) by (unfold N; ring).
  assert (N0 : (0 <= N)%R) by (apply Rmult_le_pos; lra).
  assert (RN : (bpow radix2 (-100) <= N * N <= bpow radix2 116)%R).
  { pose proof (bpow_gt_0 radix2 (-50)). rewrite NN. change (-100) with (-50 + -50). change 116 with (58 + 58). rewrite !bpow_plus.
    split; apply Rmult_le_compat; lra. }
  pose proof (bpow_gt_0 radix2 (-50)). pose proof (bpow_gt_0 radix2 (-100)).
  assert (Bp : ((1 - 21 * u24) * (N * N) <= val p * val q <= (1 + 21 * u24) * (N * N))%R).
  { rewrite NN. split.
    - apply Rle_trans with (((1 - 10 * u24) * (a * a)) * ((1 - 10 * u24) * (b * b)))%R.
      + replace ((1 - 10 * u24) * (a * a) * ((1 - 10 * u24) * (b * b)))%R with (((1 - 10 * u24) * (1 - 10 * u24)) * (a * a * (b * b)))%R by ring.
        apply Rmult_le_compat_r; [rewrite <- NN; lra|unfold u24; lra].
      + apply Rmult_le_compat; unfold u24 in *; lra.
    - apply Rle_trans with (((1 + 10 * u24) * (a * a)) * ((1 + 10 * u24) * (b * b)))%R.
      + apply Rmult_le_compat; unfold u24 in *; lra.
      + replace ((1 + 10 * u24) * (a * a) * ((1 + 10 * u24) * (b * b)))%R with (((1 + 10 * u24) * (1 + 10 * u24)) * (a * a * (b * b)))%R by ring.
        apply Rmult_le_compat_r; [rewrite <- NN; lra|unfold u24; lra]. }
  clear NN.
  assert (P0 : (0 < val p * val q)%R) by (unfold u24 in *; lra).
  assert (D101 : (bpow radix2 (-100) = 2 * bpow radix2 (-101))%R) by (change (-100) with (1 + -101); rewrite bpow_plus; reflexivity).
  assert (D117 : (bpow radix2 117 = 2 * bpow radix2 116)%R) by (change 117 with (1 + 116); rewrite bpow_plus; reflexivity).
  assert (L126 : (bpow radix2 (-126) <= bpow radix2 (-101))%R) by (apply bpow_le; lia).
  destruct (fmul_R p q Fa Fb) as [Fm Vm].
  { apply (small_lt_128 117); [lia|]. rewrite Rabs_pos_eq by lra. unfold u24 in *. lra. }
  pose proof (rnd_rel (val p * val q)) as R. rewrite Rabs_pos_eq in R by lra. specialize (R ltac:(unfold u24 in *; lra)).
  rewrite <- Vm, u24_eq in R. apply Rabs_le_inv in R.
  assert (Bm : ((1 - 23 * u24) * (N * N) <= val (fmul p q) <= (1 + 23 * u24) * (N * N))%R) by (unfold u24 in *; lra).
  assert (Nm : normal_pos (fmul p q)) by (split; [exact Fm|unfold u24 in *; lra]).
  destruct (sqrt_accuracy _ Nm) as (n & Sn & Nn & An). exists n. split; [exact Sn|]. split; [apply Nn|].
  rewrite u24_eq in An.
  assert (S1 : (sqrt (val (fmul p q)) <= (1 + 12 * u24) * N)%R).
  { rewrite <- (sqrt_square ((1 + 12 * u24) * N)). 2:{ apply Rmult_le_pos; [unfold u24; lra|exact N0]. }
    apply sqrt_le_1_alt. replace ((1 + 12 * u24) * N * ((1 + 12 * u24) * N))%R with (((1 + 12 * u24) * (1 + 12 * u24)) * (N * N))%R by ring.
    apply Rle_trans with ((1 + 23 * u24) * (N * N))%R; [lra|]. apply Rmult_le_compat_r; [lra|unfold u24; lra]. }
  assert (S2 : ((1 - 12 * u24) * N <= sqrt (val (fmul p q)))%R).
  { rewrite <- (sqrt_square ((1 - 12 * u24) * N)). 2:{ apply Rmult_le_pos; [unfold u24; lra|exact N0]. }
    apply sqrt_le_1_alt. replace ((1 - 12 * u24) * N * ((1 - 12 * u24) * N))%R with (((1 - 12 * u24) * (1 - 12 * u24)) * (N * N))%R by ring.
    apply Rle_trans with ((1 - 23 * u24) * (N * N))%R; [|lra]. apply Rmult_le_compat_r; [lra|unfold u24; lra]. }
  set (sq := sqrt (val (fmul p q))) in *. clearbody sq. unfold u24 in *. lra.
Qed.

(** ** Step B: the raw quaternion *)

Lemma c_1em6_small : fin c_1em6 /\ (0 < val c_1em6 < 0.00001)%R.
Proof. split; [reflexivity|]. unfold c_1em6. lit 0x358637BD. bpow_lit. lra. Qed.

Lemma raw_near : forall {E : Env} u v n, fin_vec u -> fin_vec v ->
  (bpow radix2 (-25) <= norm3 (V3_R u) <= bpow radix2 29)%R -> (bpow radix2 (-25) <= norm3 (V3_R v) <= bpow radix2 29)%R ->
  let N := (norm3 (V3_R u) * norm3 (V3_R v))%R in let d := T_dot (V3_R u) (V3_R v) in
  fin n -> ((1 - 16 * u24) * N <= val n <= 1.0607 * N)%R -> (- 0.9 * N <= d)%R ->
  let r := between_raw n u v in let b := T_mk (val n + d) (T_cross (V3_R u) (V3_R v)) in
  (bpow radix2 (-50) <= N <= bpow radix2 58)%R /\
  near (14 * u24 * N) (q0 r) (q0 b) /\ near (14 * u24 * N) (q1 r) (q1 b) /\
  near (14 * u24 * N) (q2 r) (q2 b) /\ near (14 * u24 * N) (q3 r) (q3 b).
Proof.
  intros E u v n Fu Fv Lu Lv N d Fn Bn Hd r b.
  pose proof (vec_le_norm u Fu) as Vu. pose proof (vec_le_norm v Fv) as Vv.
  pose proof (dot_le_norm (V3_R u) (V3_R v)) as Dd. fold d N in Dd. apply Rabs_le_inv in Dd.
  assert (RN : (bpow radix2 (-50) <= N <= bpow radix2 58)%R).
  { pose proof (bpow_gt_0 radix2 (-25)). unfold N. change (-50) with (-25 + -25). change 58 with (29 + 29). rewrite !bpow_plus.
    split; apply Rmult_le_compat; lra. }
  assert (N120 : (N <= bpow radix2 120)%R) by (eapply Rle_trans; [apply RN|apply bpow_le; lia]).
  assert (En : (eta <= / 1099511627776 * N)%R) by (apply eta_le; eapply Rle_trans; [|apply RN]; apply bpow_le; lia).
  pose proof eta_pos as E0. pose proof (bpow_gt_0 radix2 (-50)) as P50.
  split; [exact RN|].
  pose proof (dot3_tr u v _ _ Vu Vv N120) as Td. fold N in Td.
  change (val (v3x u) * val (v3x v) + val (v3y u) * val (v3y v) + val (v3z u) * val (v3z v))%R with d in Td.
  assert (Td' : tr (dot3 u v) d N (9 * u24 * N + 4 * eta)).
  { destruct Td as (A & _ & B). split; [exact A|]. split; [apply Rabs_le; lra|exact B]. }
  assert (Tn : tr n (val n) (1.0607 * N) 0).
  { apply tr_in; [exact Fn|]. rewrite Rabs_pos_eq by (unfold u24 in *; lra). lra. }
  assert (Ts : tr (fadd n (dot3 u v)) (val n + d) (1.0607 * N + N) (14 * u24 * N)).
  { eapply tr_weaken; [apply (tr_add _ _ _ _ _ _ _ _ Tn Td')|apply Rle_refl|unfold u24 in *; lra].
    rewrite bp127. unfold u24 in *. lra. }
  destruct Ts as (Fs & _ & Es).
  assert (Br : flt (fadd n (dot3 u v)) (fmul c_1em6 n) = false).
  { destruct c_1em6_small as [Fc Vc]. set (c := val c_1em6) in *.
    assert (P : (0 <= c * val n <= 0.00002 * N)%R).
    { split; [apply Rmult_le_pos; unfold u24 in *; lra|].
      apply Rle_trans with (0.00001 * (1.0607 * N))%R; [apply Rmult_le_compat; unfold u24 in *; lra|lra]. }
    destruct (fmul_R c_1em6 n Fc Fn) as [Fm Vm]; fold c in Vm || fold c.
    { apply (small_lt_128 120); [lia|]. rewrite Rabs_pos_eq; lra. }
    rewrite flt_R by assumption. apply Rlt_bool_false. rewrite Vm.
    pose proof (rnd_err_mixed (c * val n)) as R. rewrite u24_eq in R. fold eta in R.
    rewrite (Rabs_pos_eq (c * val n)) in R by lra.
    apply Rabs_le_inv in R. apply Rabs_le_inv in Es.
    set (rr := rnd _) in *. clearbody rr. set (ss := val (fadd n (dot3 u v))) in *. clearbody ss. unfold u24 in *. lra. }
  unfold r, between_raw. cbv zeta. rewrite Br. cbn [q0 q1 q2 q3 T_mk b].
  split; [split; [exact Fs|exact Es]|].
  destruct Vu as [(F0 & F1 & F2) (H0 & H1 & H2)]. destruct Vv as [(G0 & G1 & G2) (K0 & K1 & K2)].
  assert (T : forall x X, tr x X (2 * N) (5 * u24 * N + 3 * eta) -> near (14 * u24 * N) x X).
  { intros x X (A & _ & B). split; [exact A|]. unfold u24 in *. lra. }
  unfold cross3, T_cross, V3_R in *. cbn [v3x v3y v3z] in *.
  split; [|split]; apply T; apply cross3_tr; assumption.
Qed.

(** ** Step C: scaling by invsqrt of the norm *)

Lemma from_two_accuracy : forall {E : Env} u v, fin_vec u -> fin_vec v ->
  (bpow radix2 (-25) <= norm3 (V3_R u) <= bpow radix2 29)%R -> (bpow radix2 (-25) <= norm3 (V3_R v) <= bpow radix2 29)%R ->
  let N := (norm3 (V3_R u) * norm3 (V3_R v))%R in let d := T_dot (V3_R u) (V3_R v) in
  (- 0.9 * N <= d)%R ->
  exists q n k, Q_from_two_vectors (H := comp_f32) idf u v = Ok q /\
    ((1 - bpow radix2 (-20)) * N <= n <= 1.0607 * N)%R /\
    let b := T_mk (n + d) (T_cross (V3_R u) (V3_R v)) in let e := (bpow radix2 (-19) * (k * N))%R in
    (0 < k)%R /\ (0.965 <= k * sqrt (T_qdot b b) <= 1.035)%R /\
    near e (q0 q) (k * q0 b) /\ near e (q1 q) (k * q1 b) /\ near e (q2 q) (k * q2 b) /\ near e (q3 q) (k * q3 b).
Proof.
  intros E u v Fu Fv Lu Lv N d Hd. destruct (n_uv_bounds u v Fu Fv Lu Lv) as (n & Sn & Fn & Bn). fold N in Bn.
  destruct (raw_near u v n Fu Fv Lu Lv Fn Bn Hd) as (RN & R0 & R1 & R2 & R3).
  fold d N in RN, R0, R1, R2, R3.
  pose proof (dot_le_norm (V3_R u) (V3_R v)) as Dd. fold d N in Dd. apply Rabs_le_inv in Dd.
  pose proof (between_norm_general (val n) (V3_R u) (V3_R v)) as Bb. cbv zeta in Bb. fold d in Bb.
  pose proof (comp_le_norm (T_cross (V3_R u) (V3_R v))) as (C1 & C2 & C3).
  assert (CN : (norm3 (T_cross (V3_R u) (V3_R v)) <= N)%R).
  { unfold norm3 at 1. rewrite <- (sqrt_square N) by (apply Rmult_le_pos; apply norm3_nonneg). apply sqrt_le_1_alt.
    rewrite lagrange_R. fold d. unfold N.
    replace (norm3 (V3_R u) * norm3 (V3_R v) * (norm3 (V3_R u) * norm3 (V3_R v)))%R
      with ((norm3 (V3_R u) * norm3 (V3_R u)) * (norm3 (V3_R v) * norm3 (V3_R v)))%R by ring.
    rewrite !norm3_sq. pose proof (Rle_0_sqr d). unfold Rsqr in *. lra. }
  assert (NN : (T_dot (V3_R u) (V3_R u) * T_dot (V3_R v) (V3_R v) = N * N)%R).
  { rewrite <- !norm3_sq. unfold N. ring. }
  rewrite NN in Bb. clear NN.
  rewrite from_two_eq, Sn. cbn [bind].
  set (r := between_raw n u v) in *. set (w := T_cross (V3_R u) (V3_R v)) in *.
  set (b := T_mk (val n + d) w) in *.
  assert (B0 : (Rabs (q0 b) <= 2.0607 * N)%R) by (apply Rabs_le; cbn [b T_mk q0]; unfold u24 in *; lra).
  assert (B1 : (Rabs (q1 b) <= 2.0607 * N)%R) by (cbn [b T_mk q1]; pose proof (bpow_gt_0 radix2 (-50)); lra).
  assert (B2 : (Rabs (q2 b) <= 2.0607 * N)%R) by (cbn [b T_mk q2]; pose proof (bpow_gt_0 radix2 (-50)); lra).
  assert (B3 : (Rabs (q3 b) <= 2.0607 * N)%R) by (cbn [b T_mk q3]; pose proof (bpow_gt_0 radix2 (-50)); lra).
  pose proof (bpow_gt_0 radix2 (-50)) as P50. assert (N0 : (0 < N)%R) by lra.
  assert (En : (eta <= / 1099511627776 * N)%R) by (apply eta_le; eapply Rle_trans; [|apply RN]; apply bpow_le; lia).
  assert (RNN : (bpow radix2 (-100) <= N * N <= bpow radix2 116)%R).
  { change (-100) with (-50 + -50). change 116 with (58 + 58). rewrite !bpow_plus. split; apply Rmult_le_compat; lra. }
  assert (ENN : (eta <= / 1099511627776 * (N * N))%R) by (apply eta_le; eapply Rle_trans; [|apply RNN]; apply bpow_le; lia).
  pose proof eta_pos as E0.
  set (NN := (N * N)%R) in *.
  assert (SQ : forall x X, near (14 * u24 * N) x X -> (Rabs X <= 2.0607 * N)%R ->
    tr (fmul x x) (X * X) (4.3 * NN) (64 * u24 * NN)).
  { intros x X [Fx Ex] HX. assert (Tx : tr x X (2.0607 * N) (14 * u24 * N)) by (split; [exact Fx|split; assumption]).
    assert (G : ((2.0607 * N + 14 * u24 * N) * (2.0607 * N + 14 * u24 * N) <= 4.3 * NN)%R).
    { replace ((2.0607 * N + 14 * u24 * N) * (2.0607 * N + 14 * u24 * N))%R with (((2.0607 + 14 * u24) * (2.0607 + 14 * u24)) * NN)%R by (unfold NN; ring).
      apply Rmult_le_compat_r; [unfold NN; apply Rmult_le_pos; lra|unfold u24; lra]. }
    assert (H116 : (4.3 * bpow radix2 116 <= bpow radix2 127)%R).
    { change 127 with (11 + 116). rewrite bpow_plus. change (bpow radix2 11) with 2048%R. pose proof (bpow_gt_0 radix2 116). lra. }
    eapply tr_weaken; [apply (tr_mul _ _ _ _ _ _ _ _ Tx Tx)| |].
    - lra.
    - replace (2.0607 * N * (2.0607 * N))%R with (2.0607 * 2.0607 * NN)%R by (unfold NN; ring).
      apply Rmult_le_compat_r; [unfold NN; apply Rmult_le_pos; lra|lra].
    - replace (2.0607 * N * (14 * u24 * N))%R with (2.0607 * 14 * u24 * NN)%R by (unfold NN; ring).
      replace (14 * u24 * N * (14 * u24 * N))%R with (14 * 14 * u24 * u24 * NN)%R by (unfold NN; ring).
      pose proof (bpow_gt_0 radix2 (-100)). unfold u24 in *. lra. }
  pose proof (SQ _ _ R0 B0) as S0. pose proof (SQ _ _ R1 B1) as S1. pose proof (SQ _ _ R2 B2) as S2. pose proof (SQ _ _ R3 B3) as S3.
  clear SQ.
  assert (Tq : tr (@q_norm _ arith_f32 r) (T_qdot b b) (17.2 * NN) (300 * u24 * NN)).
  { assert (X : T_qdot b b = (q0 b * q0 b + q1 b * q1 b + q2 b * q2 b + q3 b * q3 b)%R).
    { unfold T_qdot, T_dot, T_vec. cbn [v3x v3y v3z]. ring. }
    assert (H127 : (20 * bpow radix2 116 <= bpow radix2 127)%R).
    { change 127 with (11 + 116). rewrite bpow_plus. change (bpow radix2 11) with 2048%R. pose proof (bpow_gt_0 radix2 116). lra. }
    pose proof (bpow_gt_0 radix2 (-100)).
    rewrite X. unfold q_norm. cbn [aadd amul arith_f32].
    eapply tr_weaken; [|apply Rle_refl|].
    - replace (17.2 * NN)%R with (4.3 * NN + 4.3 * NN + 4.3 * NN + 4.3 * NN)%R by lra.
      eapply tr_add; [eapply tr_add; [eapply tr_add; [exact S0|exact S1|]|exact S2|]|exact S3|]; unfold u24; lra.
    - unfold u24. lra. }
  destruct Tq as (Fq & _ & Eq).
  assert (Lb : (0.199 * NN <= T_qdot b b)%R).
  { rewrite Bb. fold NN.
    assert (P1 : (0 <= (val n - N) * (val n - N))%R) by apply Rle_0_sqr.
    assert (P2 : ((1 - 16 * u24) * N * (0.1 * N) <= val n * (N + d))%R) by (apply Rmult_le_compat; unfold u24 in *; lra).
    assert (P3 : ((1 - 16 * u24) * N * (0.1 * N) = (1 - 16 * u24) * 0.1 * NN)%R) by (unfold NN; ring).
    assert (P4 : ((val n - N) * (val n - N) = val n * val n - 2 * val n * N + NN)%R) by (unfold NN; ring).
    assert (P5 : (val n * (N + d) = val n * N + val n * d)%R) by ring.
    pose proof (bpow_gt_0 radix2 (-100)). unfold u24 in *. lra. }
  set (B := T_qdot b b) in *. set (nm := @q_norm _ arith_f32 r) in *.
  apply Rabs_le_inv in Eq.
  assert (Bm : ((1 - 0.0001) * B <= val nm <= (1 + 0.0001) * B)%R).
  { pose proof (bpow_gt_0 radix2 (-100)). unfold u24 in *. lra. }
  assert (Nm : normal_pos nm).
  { split; [exact Fq|]. apply Rle_trans with (bpow radix2 (-103)); [apply bpow_le; lia|].
    assert (bpow radix2 (-100) = 8 * bpow radix2 (-103))%R by (change (-100) with (3 + -103); rewrite bpow_plus; reflexivity). 
    pose proof (bpow_gt_0 radix2 (-103)). lra. }
  destruct (invsqrt_accuracy nm Nm) as (k & Ik & Nk & Ak). rewrite Ik. cbn [bind].
  pose proof (normal_pos_gt0 k Nk) as k0.
  assert (B00 : (0 < B)%R) by (pose proof (bpow_gt_0 radix2 (-100)); lra).
  assert (s0 : (0 < sqrt B)%R) by (apply sqrt_lt_R0; exact B00).
  assert (Q1 : (sqrt (val nm) <= (1 + 0.0001) * sqrt B)%R).
  { rewrite <- (sqrt_square (1 + 0.0001)) by lra. rewrite <- sqrt_mult_alt by lra. apply sqrt_le_1_alt.
    apply Rle_trans with ((1 + 0.0001) * B)%R; [lra|]. apply Rmult_le_compat_r; lra. }
  assert (Q2 : ((1 - 0.0001) * sqrt B <= sqrt (val nm))%R).
  { rewrite <- (sqrt_square (1 - 0.0001)) by lra. rewrite <- sqrt_mult_alt by lra. apply sqrt_le_1_alt.
    apply Rle_trans with ((1 - 0.0001) * B)%R; [|lra]. apply Rmult_le_compat_r; lra. }
  assert (P1 : (val k * sqrt (val nm) <= val k * ((1 + 0.0001) * sqrt B))%R) by (apply Rmult_le_compat_l; lra).
  assert (P2 : (val k * ((1 - 0.0001) * sqrt B) <= val k * sqrt (val nm))%R) by (apply Rmult_le_compat_l; lra).
  apply Rabs_le_inv in Ak.
  assert (KB : (0.965 <= val k * sqrt B <= 1.035)%R).
  { set (t := sqrt (val nm)) in *. clearbody t. lra. }
  assert (SB : (0.44 * N <= sqrt B <= 4.2 * N)%R).
  { assert (Bu : (B <= 17.3 * NN)%R).
    { rewrite Bb. fold NN.
      assert (val n * val n <= 1.0607 * N * (1.0607 * N))%R by (apply Rmult_le_compat; unfold u24 in *; lra).
      assert (val n * d <= 1.0607 * N * N)%R.
      { apply Rle_trans with (val n * N)%R; [apply Rmult_le_compat_l; unfold u24 in *; lra|apply Rmult_le_compat_r; lra]. }
      assert (1.0607 * N * (1.0607 * N) = 1.0607 * 1.0607 * NN)%R by (unfold NN; ring).
      assert (1.0607 * N * N = 1.0607 * NN)%R by (unfold NN; ring). pose proof (bpow_gt_0 radix2 (-100)). lra. }
    split.
    - rewrite <- (sqrt_square (0.44 * N)) by lra. apply sqrt_le_1_alt.
      replace (0.44 * N * (0.44 * N))%R with (0.44 * 0.44 * NN)%R by (unfold NN; ring). lra.
    - rewrite <- (sqrt_square (4.2 * N)) by lra. apply sqrt_le_1_alt.
      replace (4.2 * N * (4.2 * N))%R with (4.2 * 4.2 * NN)%R by (unfold NN; ring). pose proof (bpow_gt_0 radix2 (-100)). lra. }
  assert (KN : (0.2 <= val k * N <= 2.4)%R).
  { assert (val k * sqrt B <= val k * (4.2 * N))%R by (apply Rmult_le_compat_l; lra).
    assert (val k * (0.44 * N) <= val k * sqrt B)%R by (apply Rmult_le_compat_l; lra). lra. }
  eexists. exists (val n), (val k). split; [reflexivity|]. split.
  { change (bpow radix2 (-20)) with (/ 1048576)%R. unfold u24 in *. lra. }
  cbv zeta. fold b. fold B. split; [exact k0|]. split; [exact KB|].
  assert (FIN : forall x X, near (14 * u24 * N) x X -> (Rabs X <= 2.0607 * N)%R ->
    near (bpow radix2 (-19) * (val k * N)) (fmul x k) (val k * X)).
  { intros x X [Fx Ex] HX.
    assert (Bx : (Rabs (val x) <= 2.061 * N)%R).
    { replace (val x) with (X + (val x - X))%R by ring. eapply Rle_trans; [apply Rabs_triang|]. unfold u24 in *. lra. }
    assert (Bk : (Rabs (val x * val k) <= 2.061 * (val k * N))%R).
    { rewrite Rabs_mult, (Rabs_pos_eq (val k)) by lra. replace (2.061 * (val k * N))%R with (2.061 * N * val k)%R by ring.
      apply Rmult_le_compat_r; lra. }
    destruct (fmul_R x k Fx (proj1 Nk)) as [Fm Vm].
    { apply (small_lt_128 3); [lia|]. change (bpow radix2 3) with 8%R. lra. }
    split; [exact Fm|]. rewrite Vm.
    pose proof (rnd_err_mixed (val x * val k)) as R. rewrite u24_eq in R. fold eta in R.
    replace (rnd (val x * val k) - val k * X)%R with ((rnd (val x * val k) - val x * val k) + val k * (val x - X))%R by ring.
    eapply Rle_trans; [apply Rabs_triang|]. rewrite (Rabs_mult (val k)), (Rabs_pos_eq (val k)) by lra.
    assert (val k * Rabs (val x - X) <= val k * (14 * u24 * N))%R by (apply Rmult_le_compat_l; lra).
    replace (val k * (14 * u24 * N))%R with (14 * u24 * (val k * N))%R in * by ring.
    assert (ET : (eta <= / 1099511627776)%R).
    { unfold eta. change (/ 1099511627776)%R with (bpow radix2 (-40)). apply bpow_le. lia. }
    change (bpow radix2 (-19)) with (/ 524288)%R. unfold u24 in *. lra. }
  unfold q_scale. cbn [q0 q1 q2 q3 amul arith_f32].
  split; [|split; [|split]]; apply FIN; assumption.
Qed.

(** ** Step D: rotating [u] by the result *)

Lemma mul_pert : forall a b A B d, (Rabs A <= 1.04)%R -> (Rabs B <= 1.04)%R -> (Rabs (a - A) <= d)%R -> (Rabs (b - B) <= d)%R ->
  (d <= 0.002)%R -> (Rabs (a * b - A * B) <= 2.09 * d)%R.
Proof.
  intros a b A B d HA HB Ha Hb D. pose proof (Rabs_pos (a - A)) as d0.
  replace (a * b - A * B)%R with (A * (b - B) + B * (a - A) + (a - A) * (b - B))%R by ring.
  eapply Rle_trans; [apply Rabs_triang|]. eapply Rle_trans; [apply Rplus_le_compat_r, Rabs_triang|]. rewrite !Rabs_mult.
  assert (Rabs A * Rabs (b - B) <= 1.04 * d)%R by (apply Rmult_le_compat; trivial; apply Rabs_pos).
  assert (Rabs B * Rabs (a - A) <= 1.04 * d)%R by (apply Rmult_le_compat; trivial; apply Rabs_pos).
  assert (Rabs (a - A) * Rabs (b - B) <= 0.002 * d)%R by (apply Rmult_le_compat; trivial; try apply Rabs_pos; lra).
  lra.
Qed.

Definition q_near (d : R) (p q : Quat R) : Prop :=
  (Rabs (q0 p - q0 q) <= d /\ Rabs (q1 p - q1 q) <= d /\ Rabs (q2 p - q2 q) <= d /\ Rabs (q3 p - q3 q) <= d)%R.
Definition v_near (d : R) (u v : Vector3d R) : Prop :=
  (Rabs (v3x u - v3x v) <= d /\ Rabs (v3y u - v3y v) <= d /\ Rabs (v3z u - v3z v) <= d)%R.

Lemma coef_row : forall c1 c2 c3 x y z d a, (Rabs c1 <= d)%R -> (Rabs c2 <= d)%R -> (Rabs c3 <= d)%R ->
  (Rabs x <= a)%R -> (Rabs y <= a)%R -> (Rabs z <= a)%R -> (Rabs (c1 * x + c2 * y + c3 * z) <= 3 * (d * a))%R.
Proof.
  intros. eapply Rle_trans; [apply Rabs_triang|]. eapply Rle_trans; [apply Rplus_le_compat_r, Rabs_triang|]. rewrite !Rabs_mult.
  assert (G : forall c t, (Rabs c <= d)%R -> (Rabs t <= a)%R -> (Rabs c * Rabs t <= d * a)%R)
    by (intros; apply Rmult_le_compat; trivial; apply Rabs_pos).
  pose proof (G c1 x ltac:(assumption) ltac:(assumption)). pose proof (G c2 y ltac:(assumption) ltac:(assumption)).
  pose proof (G c3 z ltac:(assumption) ltac:(assumption)). lra.
Qed.

Lemma rotate_pert : forall p q u a d, q_near d p q ->
  (Rabs (q0 q) <= 1.04 /\ Rabs (q1 q) <= 1.04 /\ Rabs (q2 q) <= 1.04 /\ Rabs (q3 q) <= 1.04)%R ->
  (Rabs (v3x u) <= a /\ Rabs (v3y u) <= a /\ Rabs (v3z u) <= a)%R -> (d <= 0.002)%R ->
  v_near (26 * (d * a)) (T_rotate p u) (T_rotate q u).
Proof.
  intros [p0 p1 p2 p3] [r0 r1 r2 r3] [x y z] a d (D0 & D1 & D2 & D3) (H0 & H1 & H2 & H3) (X & Y & Z) Hd.
  cbn [q0 q1 q2 q3 v3x v3y v3z] in *.
  assert (da : (0 <= d * a)%R) by (apply Rmult_le_pos; [pose proof (Rabs_pos (p0 - r0))|pose proof (Rabs_pos x)]; lra).
  pose proof (mul_pert p0 p0 r0 r0 d H0 H0 D0 D0 Hd) as M00. pose proof (mul_pert p1 p1 r1 r1 d H1 H1 D1 D1 Hd) as M11.
  pose proof (mul_pert p2 p2 r2 r2 d H2 H2 D2 D2 Hd) as M22. pose proof (mul_pert p3 p3 r3 r3 d H3 H3 D3 D3 Hd) as M33.
  pose proof (mul_pert p0 p1 r0 r1 d H0 H1 D0 D1 Hd) as M01. pose proof (mul_pert p0 p2 r0 r2 d H0 H2 D0 D2 Hd) as M02.
  pose proof (mul_pert p0 p3 r0 r3 d H0 H3 D0 D3 Hd) as M03. pose proof (mul_pert p1 p2 r1 r2 d H1 H2 D1 D2 Hd) as M12.
  pose proof (mul_pert p1 p3 r1 r3 d H1 H3 D1 D3 Hd) as M13. pose proof (mul_pert p2 p3 r2 r3 d H2 H3 D2 D3 Hd) as M23.
  apply Rabs_le_inv in M00, M11, M22, M33, M01, M02, M03, M12, M13, M23.
  unfold v_near, T_rotate, T_add, T_scale, T_cross, T_dot, T_vec. cbn [q0 q1 q2 q3 v3x v3y v3z].
  assert (G : forall t c1 c2 c3, t = (c1 * x + c2 * y + c3 * z)%R -> (Rabs c1 <= 8.36 * d)%R -> (Rabs c2 <= 8.36 * d)%R -> (Rabs c3 <= 8.36 * d)%R ->
    (Rabs t <= 26 * (d * a))%R).
  { intros t c1 c2 c3 -> C1 C2 C3. eapply Rle_trans; [apply (coef_row _ _ _ _ _ _ (8.36 * d) a); assumption|]. lra. }
  split; [|split].
  - apply (G _ ((p0*p0 - r0*r0) + (p1*p1 - r1*r1) - (p2*p2 - r2*r2) - (p3*p3 - r3*r3))%R
      (2 * ((p1*p2 - r1*r2) - (p0*p3 - r0*r3)))%R (2 * ((p1*p3 - r1*r3) + (p0*p2 - r0*r2)))%R);
      [ring|apply Rabs_le; lra|apply Rabs_le; lra|apply Rabs_le; lra].
  - apply (G _ (2 * ((p1*p2 - r1*r2) + (p0*p3 - r0*r3)))%R
      ((p0*p0 - r0*r0) - (p1*p1 - r1*r1) + (p2*p2 - r2*r2) - (p3*p3 - r3*r3))%R
      (2 * ((p2*p3 - r2*r3) - (p0*p1 - r0*r1)))%R);
      [ring|apply Rabs_le; lra|apply Rabs_le; lra|apply Rabs_le; lra].
  - apply (G _ (2 * ((p1*p3 - r1*r3) - (p0*p2 - r0*r2)))%R (2 * ((p2*p3 - r2*r3) + (p0*p1 - r0*r1)))%R
      ((p0*p0 - r0*r0) - (p1*p1 - r1*r1) - (p2*p2 - r2*r2) + (p3*p3 - r3*r3))%R);
      [ring|apply Rabs_le; lra|apply Rabs_le; lra|apply Rabs_le; lra].
Qed.

Lemma rotate_homog : forall k b u, T_rotate (T_mk (k * q0 b) (T_scale k (T_vec b))) u = T_scale (k * k) (T_rotate b u).
Proof.
  intros k [b0 b1 b2 b3] [x y z]. unfold T_rotate, T_mk, T_add, T_scale, T_cross, T_dot, T_vec. cbn [q0 q1 q2 q3 v3x v3y v3z].
  f_equal; ring.
Qed.

Lemma cross_pert : forall r s v d B, v_near d r s -> (Rabs (v3x v) <= B /\ Rabs (v3y v) <= B /\ Rabs (v3z v) <= B)%R ->
  v_near (2 * (d * B)) (T_cross r v) (T_cross s v) /\ (Rabs (T_dot r v - T_dot s v) <= 3 * (d * B))%R.
Proof.
  intros [a b c] [a' b' c'] [x y z] d B (H1 & H2 & H3) (X & Y & Z). cbn [v3x v3y v3z] in *.
  assert (G : forall s t, (Rabs s <= d)%R -> (Rabs t <= B)%R -> (Rabs (s * t) <= d * B)%R)
    by (intros; rewrite Rabs_mult; apply Rmult_le_compat; trivial; apply Rabs_pos).
  assert (G2 : forall p q s t, (Rabs p <= d)%R -> (Rabs q <= B)%R -> (Rabs s <= d)%R -> (Rabs t <= B)%R ->
    (Rabs (p * q - s * t) <= 2 * (d * B))%R).
  { intros p q s t P Q S T. pose proof (G p q P Q). pose proof (G s t S T).
    unfold Rminus. eapply Rle_trans; [apply Rabs_triang|]. rewrite Rabs_Ropp. lra. }
  unfold v_near, T_cross, T_dot. cbn [v3x v3y v3z]. split; [split; [|split]|].
  - replace (b * z - c * y - (b' * z - c' * y))%R with ((b - b') * z - (c - c') * y)%R by ring. apply G2; assumption.
  - replace (c * x - a * z - (c' * x - a' * z))%R with ((c - c') * x - (a - a') * z)%R by ring. apply G2; assumption.
  - replace (a * y - b * x - (a' * y - b' * x))%R with ((a - a') * y - (b - b') * x)%R by ring. apply G2; assumption.
  - replace (a * x + b * y + c * z - (a' * x + b' * y + c' * z))%R with ((a - a') * x + (b - b') * y + (c - c') * z)%R by ring.
    apply coef_row; assumption.
Qed.

Lemma sq_pert : forall r s d A, v_near d r s -> (T_dot s s <= A * A)%R -> (0 <= A)%R ->
  (T_dot r r <= A * A + 6 * (A * d) + 3 * (d * d))%R.
Proof.
  intros r s d A H L A0.
  assert (C : (Rabs (v3x s) <= A /\ Rabs (v3y s) <= A /\ Rabs (v3z s) <= A)%R).
  { pose proof (comp_le_norm s) as (C1 & C2 & C3). assert (norm3 s <= A)%R; [|lra].
    unfold norm3. rewrite <- (sqrt_square A) by exact A0. apply sqrt_le_1_alt. exact L. }
  destruct r as [a b c], s as [a' b' c']. destruct H as (H1 & H2 & H3). destruct C as (C1 & C2 & C3).
  unfold T_dot in *. cbn [v3x v3y v3z] in *.
  assert (G : forall x y, (Rabs (x - y) <= d)%R -> (Rabs y <= A)%R -> (x * x <= y * y + 2 * (A * d) + d * d)%R).
  { intros x y D Y. replace (x * x)%R with (y * y + 2 * (y * (x - y)) + (x - y) * (x - y))%R by ring.
    assert (y * (x - y) <= A * d)%R.
    { eapply Rle_trans; [apply Rle_abs|]. rewrite Rabs_mult. apply Rmult_le_compat; trivial; apply Rabs_pos. }
    assert ((x - y) * (x - y) <= d * d)%R.
    { eapply Rle_trans; [apply Rle_abs|]. rewrite Rabs_mult. apply Rmult_le_compat; trivial; apply Rabs_pos. } lra. }
  pose proof (G _ _ H1 C1). pose proof (G _ _ H2 C2). pose proof (G _ _ H3 C3). lra.
Qed.

Lemma v_near_trans : forall d e r s t, v_near d r s -> v_near e s t -> v_near (d + e) r t.
Proof.
  intros d e r s t (A1 & A2 & A3) (B1 & B2 & B3). unfold v_near.
  assert (G : forall x y z, (Rabs (x - y) <= d)%R -> (Rabs (y - z) <= e)%R -> (Rabs (x - z) <= d + e)%R).
  { intros x y z H K. replace (x - z)%R with ((x - y) + (y - z))%R by ring. eapply Rle_trans; [apply Rabs_triang|]. lra. }
  split; [|split]; eapply G; eassumption.
Qed.
Lemma v_near_weaken : forall d e r s, v_near d r s -> (d <= e)%R -> v_near e r s.
Proof. intros d e r s (A1 & A2 & A3) H. unfold v_near. lra. Qed.

Lemma from_two_turns : forall {E : Env} u v, fin_vec u -> fin_vec v ->
  (bpow radix2 (-25) <= norm3 (V3_R u) <= bpow radix2 29)%R -> (bpow radix2 (-25) <= norm3 (V3_R v) <= bpow radix2 29)%R ->
  let N := (norm3 (V3_R u) * norm3 (V3_R v))%R in
  (0 <= T_dot (V3_R u) (V3_R v))%R ->
  exists q, Q_from_two_vectors (H := comp_f32) idf u v = Ok q /\
  let r := Q_rotate idf q u in let c := T_cross (V3_R r) (V3_R v) in
  fin_vec r /\ (0.92 * N <= T_dot (V3_R r) (V3_R v))%R /\ (norm3 c <= 0.0635 * N)%R.
Proof.
  intros E u v Fu Fv Lu Lv N Hd.
  pose proof (norm3_nonneg (V3_R u)) as a0. pose proof (norm3_nonneg (V3_R v)) as b0.
  destruct (from_two_accuracy u v Fu Fv Lu Lv) as (q & n & k & Hq & Bn & k0 & KB & Q0 & Q1 & Q2 & Q3).
  { fold N. assert (0 <= N)%R by (apply Rmult_le_pos; lra). lra. }
  fold N in Bn, Q0, Q1, Q2, Q3. exists q. split; [exact Hq|].
  pose proof (between_norm_general n (V3_R u) (V3_R v)) as Bb. cbv zeta in Bb.
  pose proof (between_general n (V3_R u) (V3_R v)) as Bg.
  pose proof (dot_le_norm (V3_R u) (V3_R v)) as Dd. fold N in Dd. rewrite Rabs_pos_eq in Dd by exact Hd.
  pose proof (lagrange_R (V3_R u) (V3_R v)) as Lg.
  assert (NN : (T_dot (V3_R u) (V3_R u) * T_dot (V3_R v) (V3_R v) = N * N)%R) by (rewrite <- !norm3_sq; unfold N; ring).
  rewrite NN in *.
  set (d := T_dot (V3_R u) (V3_R v)) in *. set (b := T_mk (n + d) (T_cross (V3_R u) (V3_R v))) in *. set (B := T_qdot b b) in *.
  change (bpow radix2 (-20)) with (/ 1048576)%R in Bn. change (bpow radix2 (-19)) with (/ 524288)%R in *.
  assert (RN : (bpow radix2 (-50) <= N)%R).
  { pose proof (bpow_gt_0 radix2 (-25)). unfold N. change (-50) with (-25 + -25). rewrite !bpow_plus. apply Rmult_le_compat; lra. }
  pose proof (bpow_gt_0 radix2 (-50)) as P50. assert (N0 : (0 < N)%R) by lra.
  (* normalized variables *)
  set (x := (n / N)%R). set (t := (d / N)%R).
  assert (Ex : n = (x * N)%R) by (unfold x; field; lra). assert (Et : d = (t * N)%R) by (unfold t; field; lra).
  assert (Bx : (1 - / 1048576 <= x <= 1.0607)%R).
  { rewrite Ex in Bn. split; apply Rmult_le_reg_r with N; lra. }
  assert (Bt : (0 <= t <= 1)%R).
  { rewrite Et in Hd, Dd. split; apply Rmult_le_reg_r with N; lra. }
  set (G := (x * x + 2 * x * t + 1)%R).
  assert (EB : B = (G * (N * N))%R) by (rewrite Bb, Ex, Et; unfold G; ring).
  assert (x2 : (0.99 <= x * x <= 1.12509)%R).
  { split; [apply Rle_trans with ((1 - / 1048576) * (1 - / 1048576))%R|apply Rle_trans with (1.0607 * 1.0607)%R];
      try lra; apply Rmult_le_compat; lra. }
  assert (xt : (0 <= x * t <= 1.0607)%R).
  { split; [apply Rmult_le_pos; lra|]. apply Rle_trans with (1.0607 * 1)%R; [apply Rmult_le_compat; lra|lra]. }
  assert (G0 : (1.99 <= G)%R) by (unfold G; lra).
  assert (NN0 : (0 < N * N)%R) by (apply Rmult_lt_0_compat; exact N0).
  assert (B0 : (0 < B)%R) by (rewrite EB; apply Rmult_lt_0_compat; lra).
  assert (KK : (0.965 * 0.965 <= k * k * B <= 1.035 * 1.035)%R).
  { replace (k * k * B)%R with ((k * sqrt B) * (k * sqrt B))%R.
    2:{ rewrite <- (sqrt_sqrt B) at 3 by lra. ring. }
    split; apply Rmult_le_compat; lra. }
  set (w := (k * N)%R).
  assert (Ew : (k * k * B = w * w * G)%R) by (rewrite EB; unfold w; ring). rewrite Ew in KK.
  assert (w0 : (0 < w)%R) by (apply Rmult_lt_0_compat; lra).
  assert (w1 : (w <= 0.74)%R).
  { apply Rsqr_incr_0; [|lra|lra]. unfold Rsqr.
    assert (w * w * 1.99 <= w * w * G)%R by (apply Rmult_le_compat_l; [apply Rmult_le_pos; lra|lra]). lra. }
  fold w in Q0, Q1, Q2, Q3.
  (* q is close to k b *)
  set (p := T_mk (k * q0 b) (T_scale k (T_vec b))).
  assert (Qp : q_near 0.0000015 (Q_R q) p).
  { unfold q_near, p, T_mk, T_scale, T_vec, Q_R. cbn [q0 q1 q2 q3 v3x v3y v3z].
    destruct Q0 as [_ Q0], Q1 as [_ Q1], Q2 as [_ Q2], Q3 as [_ Q3].
    repeat split; (eapply Rle_trans; [eassumption|]); lra. }
  assert (PB : (Rabs (q0 p) <= 1.035 /\ Rabs (q1 p) <= 1.035 /\ Rabs (q2 p) <= 1.035 /\ Rabs (q3 p) <= 1.035)%R).
  { assert (K : forall c, (c * c <= B)%R -> (Rabs (k * c) <= 1.035)%R).
    { intros c H. rewrite Rabs_mult, (Rabs_pos_eq k) by lra. apply Rle_trans with (k * sqrt B)%R; [|lra].
      apply Rmult_le_compat_l; [lra|]. rewrite <- sqrt_Rsqr_abs. apply sqrt_le_1_alt. exact H. }
    unfold p, T_mk, T_scale, T_vec. cbn [q0 q1 q2 q3 v3x v3y v3z].
    unfold B, T_qdot, T_dot, T_vec in K. cbn [v3x v3y v3z] in K.
    pose proof (Rle_0_sqr (q0 b)). pose proof (Rle_0_sqr (q1 b)). pose proof (Rle_0_sqr (q2 b)). pose proof (Rle_0_sqr (q3 b)).
    unfold Rsqr in *. repeat split; apply K; lra. }
  pose proof (comp_le_norm (V3_R u)) as Cu. pose proof (comp_le_norm (V3_R v)) as Cv.
  assert (RP : v_near (26 * (0.0000015 * norm3 (V3_R u))) (T_rotate (Q_R q) (V3_R u)) (T_rotate p (V3_R u))).
  { apply rotate_pert; [exact Qp| |exact Cu|lra]. destruct PB as (A1 & A2 & A3 & A4). repeat split; lra. }
  assert (Ep : T_rotate p (V3_R u) = T_scale (k * k) (T_add (T_scale (n * n - N * N) (V3_R u)) (T_scale (2 * (n + d) * T_dot (V3_R u) (V3_R u)) (V3_R v)))).
  { unfold p. rewrite rotate_homog. rewrite Bg. reflexivity. }
  (* f32 rotation *)
  assert (Ql : quat_le q 1.04).
  { destruct Qp as (D0 & D1 & D2 & D3). destruct PB as (A0 & A1 & A2 & A3). unfold Q_R in *. cbn [q0 q1 q2 q3] in *.
    assert (K : forall s r, (Rabs (s - r) <= 0.0000015)%R -> (Rabs r <= 1.035)%R -> (Rabs s <= 1.04)%R).
    { intros s r H K. replace s with ((s - r) + r)%R by ring. eapply Rle_trans; [apply Rabs_triang|]. lra. }
    split; [repeat split; [apply Q0|apply Q1|apply Q2|apply Q3]|]. repeat split; eapply K; eassumption. }
  assert (b29 : (4 * bpow radix2 29 <= bpow radix2 120)%R).
  { change 4%R with (bpow radix2 2). rewrite <- bpow_plus. apply bpow_le. lia. }
  assert (b1 : (1 <= bpow radix2 29)%R) by (change 1%R with (bpow radix2 0); apply bpow_le; lia).
  pose proof (rotate_error q u 1.04 (norm3 (V3_R u)) Ql (vec_le_norm u Fu) ltac:(lra) ltac:(lra) ltac:(lra)) as RE. cbv zeta in RE.
  destruct (textbook (Q_R q) (Q_R q) (V3_R u)) as (_ & _ & _ & _ & Tb). rewrite Tb in RE.
  assert (Er : Q_rotate idf q u = @q_rotate _ arith_f32 q u) by (destruct u; reflexivity). rewrite Er.
  set (r := @q_rotate _ arith_f32 q u) in *. cbv zeta.
  destruct RE as ((Rx & Ex') & (Ry & Ey') & (Rz & Ez')).
  split; [repeat split; assumption|].
  assert (RV : v_near (0.000006 * norm3 (V3_R u)) (V3_R r) (T_rotate (Q_R q) (V3_R u))).
  { assert (S : (80 * bpow radix2 (-24) * (1.04 * 1.04 * norm3 (V3_R u)) + bpow radix2 (-145) * (norm3 (V3_R u) + 1) <= 0.000006 * norm3 (V3_R u))%R).
    { rewrite u24_eq. unfold u24.
      assert (A1 : (bpow radix2 (-145) <= / 1099511627776)%R) by (change (/ 1099511627776)%R with (bpow radix2 (-40)); apply bpow_le; lia).
      assert (A2 : (bpow radix2 (-145) <= / 1099511627776 * norm3 (V3_R u))%R).
      { change (-145) with (-40 + -105). rewrite bpow_plus. change (bpow radix2 (-40)) with (/ 1099511627776)%R.
        apply Rmult_le_compat_l; [lra|]. eapply Rle_trans; [|apply Lu]. apply bpow_le. lia. }
      assert (A3 : (bpow radix2 (-145) * norm3 (V3_R u) <= / 1099511627776 * norm3 (V3_R u))%R) by (apply Rmult_le_compat_r; lra).
      lra. }
    unfold v_near, V3_R at 1 3 5. cbn [v3x v3y v3z].
    split; [|split]; (eapply Rle_trans; [eassumption|exact S]). }
  pose proof (v_near_trans _ _ _ _ _ RV RP) as RR. rewrite Ep in RR. clear Ep RP RV.
  apply (v_near_weaken _ (0.000046 * norm3 (V3_R u))) in RR; [|lra].
  set (s := T_scale (k * k) _) in RR.
  destruct (cross_pert _ _ (V3_R v) _ _ RR Cv) as [CP DP].
  replace (0.000046 * norm3 (V3_R u) * norm3 (V3_R v))%R with (0.000046 * N)%R in * by (unfold N; ring).
  assert (Ds : T_dot s (V3_R v) = (w * w * ((x * x - 1) * t + 2 * (x + t)) * N)%R).
  { unfold s. transitivity (k * k * ((n * n - N * N) * d + 2 * (n + d) * (T_dot (V3_R u) (V3_R u) * T_dot (V3_R v) (V3_R v))))%R.
    - unfold d. destruct (V3_R u) as [h1 h2 h3], (V3_R v) as [l1 l2 l3]. unfold T_scale, T_add, T_dot. cbn [v3x v3y v3z]. ring.
    - rewrite NN, Ex, Et. unfold w. ring. }
  assert (Cs : T_cross s (V3_R v) = T_scale (k * k * (n * n - N * N)) (T_cross (V3_R u) (V3_R v))).
  { unfold s. destruct (V3_R u) as [h1 h2 h3], (V3_R v) as [l1 l2 l3]. unfold T_scale, T_add, T_cross. cbn [v3x v3y v3z]. f_equal; ring. }
  split.
  - assert (M : (0.99 * G <= (x * x - 1) * t + 2 * (x + t))%R).
    { assert (A1 : (0 <= t * (x * x - 1.98 * x + 1))%R).
      { apply Rmult_le_pos; [lra|]. pose proof (Rle_0_sqr (x - 0.99)) as Q. unfold Rsqr in Q. lra. }
      assert (A2 : (0 <= (1.0607 - x) * (x - (1 - / 1048576)))%R) by (apply Rmult_le_pos; lra).
      unfold G. lra. }
    assert (M2 : (0.99 * (w * w * G) <= w * w * ((x * x - 1) * t + 2 * (x + t)))%R).
    { replace (0.99 * (w * w * G))%R with (w * w * (0.99 * G))%R by ring. apply Rmult_le_compat_l; [apply Rmult_le_pos; lra|exact M]. }
    assert (M3 : (0.9219 * N <= T_dot s (V3_R v))%R) by (rewrite Ds; apply Rmult_le_compat_r; lra).
    apply Rabs_le_inv in DP. lra.
  - assert (H1 : (T_dot (T_cross s (V3_R v)) (T_cross s (V3_R v)) <= (0.0631 * N) * (0.0631 * N))%R).
    { assert (A1 : (T_dot (T_cross s (V3_R v)) (T_cross s (V3_R v)) =
        (w * w * (x * x - 1)) * (w * w * (x * x - 1)) * ((1 - t * t) * (N * N)))%R).
      { rewrite Cs. transitivity ((k * k * (n * n - N * N)) * (k * k * (n * n - N * N)) * T_dot (T_cross (V3_R u) (V3_R v)) (T_cross (V3_R u) (V3_R v)))%R.
        - destruct (T_cross (V3_R u) (V3_R v)) as [h1 h2 h3]. unfold T_scale, T_dot. cbn [v3x v3y v3z]. ring.
        - rewrite Lg. rewrite Ex, Et. unfold w. ring. }
      assert (A2 : (Rabs (w * w * (x * x - 1)) <= 0.0631)%R).
      { assert (ww : (0 <= w * w)%R) by (apply Rmult_le_pos; lra).
        assert (U : (x * x - 1 <= 0.0589 * G)%R) by (unfold G; lra).
        assert (V : (- 0.01 * G <= x * x - 1)%R) by (unfold G; lra).
        assert (w * w * (x * x - 1) <= w * w * (0.0589 * G))%R by (apply Rmult_le_compat_l; lra).
        assert (w * w * (- 0.01 * G) <= w * w * (x * x - 1))%R by (apply Rmult_le_compat_l; lra).
        apply Rabs_le. lra. }
      assert (A3 : ((w * w * (x * x - 1)) * (w * w * (x * x - 1)) <= 0.0631 * 0.0631)%R).
      { eapply Rle_trans; [apply Rle_abs|]. rewrite Rabs_mult. apply Rmult_le_compat; trivial; apply Rabs_pos. }
      rewrite A1. replace (0.0631 * N * (0.0631 * N))%R with (0.0631 * 0.0631 * (1 * (N * N)))%R by ring.
      assert (T2 : (0 <= t * t <= 1)%R) by (split; [apply Rmult_le_pos; lra|rewrite <- (Rmult_1_r 1) at 1; apply Rmult_le_compat; lra]).
      apply Rmult_le_compat; [apply Rle_0_sqr|apply Rmult_le_pos; lra|exact A3|apply Rmult_le_compat_r; lra]. }
    pose proof (sq_pert _ _ _ _ CP H1 ltac:(lra)) as H2.
    unfold norm3 at 1. rewrite <- (sqrt_square (0.0635 * N)) by lra. apply sqrt_le_1_alt.
    replace (0.0631 * N * (0.0631 * N) + 6 * (0.0631 * N * (2 * (0.000046 * N))) + 3 * (2 * (0.000046 * N) * (2 * (0.000046 * N))))%R
      with ((0.0631 * 0.0631 + 6 * (0.0631 * (2 * 0.000046)) + 3 * (2 * 0.000046 * (2 * 0.000046))) * (N * N))%R in H2 by ring.
    lra.
Qed.
