(** * Proofs for C106, C107: axis_angle followed by rotate and by to_euler *)

From Coq Require Import ZArith Reals Bool List Lia Lra.
From Flocq Require Import Core IEEE754.Binary IEEE754.Bits.
From Verif Require Import Base Spec Float Vector Quaternion F32Lemmas BitLemmas P_Trunc P_Floor Literals ErrLemmas P_RoundEdge
  NanLemmas P_Euclid P_Roots P_InvSqrt P_Recip P_Vector P_VecInt P_SumSq P_VecF32 P_Stats QuatReal P_Quat P_Quat2 SpecQuat P_Quat3 P_Quat4 P_Trig P_Euler.
Import ListNotations.
Open Scope Z_scope.

(** Rotation of [x] by the angle [t] about the unit vector [v]. *)
Lemma half_angle : forall t, (cos t = cos (t / 2) * cos (t / 2) - sin (t / 2) * sin (t / 2) /\ sin t = 2 * sin (t / 2) * cos (t / 2) /\
  cos (t / 2) * cos (t / 2) + sin (t / 2) * sin (t / 2) = 1)%R.
Proof.
  intros t. pose proof (sin2_cos2 (t / 2)) as H. unfold Rsqr in H.
  pose proof (cos_2a (t / 2)) as A. pose proof (sin_2a (t / 2)) as B. replace (2 * (t / 2))%R with t in * by lra.
  split; [exact A|]. split; [exact B|]. lra.
Qed.

Lemma rodrigues_exact : forall v t x, T_rotate (T_mk (cos (t / 2)) (T_scale (sin (t / 2)) v)) x =
  T_add (T_rodrigues v t x) (T_scale ((1 - T_dot v v) * (sin (t / 2) * sin (t / 2))) x).
Proof.
  intros v t x. destruct (half_angle t) as (A & B & D). unfold T_rodrigues. rewrite A, B.
  set (c := cos (t / 2)) in *. set (s := sin (t / 2)) in *.
  assert (K : (1 - (c * c - s * s) = 2 * (s * s))%R) by lra. rewrite K. clear A B D K.
  destruct v as [a b d], x as [x y z]. unfold T_rotate, T_mk, T_add, T_scale, T_cross, T_dot, T_vec. cbn [v3x v3y v3z q0 q1 q2 q3].
  f_equal; ring.
Qed.

Lemma unit_comp : forall v, (Rabs (T_dot v v - 1) <= 0.00001)%R ->
  (Rabs (v3x v) <= 1.001 /\ Rabs (v3y v) <= 1.001 /\ Rabs (v3z v) <= 1.001)%R.
Proof.
  intros v H. apply Rabs_le_inv in H. pose proof (comp_le_norm v) as (A & B & C).
  assert (norm3 v <= 1.001)%R; [|lra]. unfold norm3. rewrite <- (sqrt_square 1.001) by lra. apply sqrt_le_1_alt. lra.
Qed.

Lemma axis_angle_rotates : forall {E : Env} v theta x V,
  fin_vec v -> fin theta -> (Rabs (val theta) <= 8192)%R -> (Rabs (T_dot (V3_R v) (V3_R v) - 1) <= 0.00001)%R ->
  vec_le x V -> (V <= bpow radix2 100)%R ->
  let r := Q_rotate idf (Q_axis_angle idf v theta) x in let s := T_rodrigues (V3_R v) (val theta) (V3_R x) in
  let e := (0.05 * V + bpow radix2 (-144))%R in
  near e (v3x r) (v3x s) /\ near e (v3y r) (v3y s) /\ near e (v3z r) (v3z s).
Proof.
  intros E v theta x V Fv Ft Bt Uv Vx LV.
  pose proof (unit_comp _ Uv) as (U1 & U2 & U3).
  destruct Fv as (F0 & F1 & F2).
  destruct (axis_angle_acc idf v theta F0 F1 F2 Ft Bt Uv) as (N0 & N1 & N2 & N3 & NN). cbv zeta in *. unfold idf in N0, N1, N2, N3, NN.
  fold (@idf) in *. set (q := Q_axis_angle _ v theta) in *.
  change (Q_axis_angle idf v theta) with q.
  set (p := T_mk (cos (val theta / 2)) (T_scale (sin (val theta / 2)) (V3_R v))).
  assert (Sb : (Rabs (sin (val theta / 2)) <= 1)%R) by (apply Rabs_le, SIN_bound).
  assert (Cb : (Rabs (cos (val theta / 2)) <= 1)%R) by (apply Rabs_le, COS_bound).
  assert (Qp : q_near 0.0019 (Q_R q) p).
  { unfold q_near, p, T_mk, T_scale, V3_R, Q_R. cbn [q0 q1 q2 q3 v3x v3y v3z].
    destruct N0 as [_ N0], N1 as [_ N1], N2 as [_ N2], N3 as [_ N3].
    rewrite !(Rmult_comm (sin (val theta / 2))). repeat split; try assumption. lra. }
  assert (Pb : (Rabs (q0 p) <= 1.04 /\ Rabs (q1 p) <= 1.04 /\ Rabs (q2 p) <= 1.04 /\ Rabs (q3 p) <= 1.04)%R).
  { unfold p, T_mk, T_scale. cbn [q0 q1 q2 q3 v3x v3y v3z]. rewrite !Rabs_mult.
    assert (G : forall a, (Rabs a <= 1.001)%R -> (Rabs (sin (val theta / 2)) * Rabs a <= 1.04)%R).
    { intros a Ha. apply Rle_trans with (1 * 1.001)%R; [apply Rmult_le_compat; try apply Rabs_pos; assumption|lra]. }
    split; [lra|]. split; [apply G; exact U1|]. split; [apply G; exact U2|apply G; exact U3]. }
  assert (RP : v_near (26 * (0.0019 * V)) (T_rotate (Q_R q) (V3_R x)) (T_rotate p (V3_R x))).
  { apply rotate_pert; [exact Qp|exact Pb|apply Vx|lra]. }
  unfold p in RP. rewrite rodrigues_exact in RP.
  assert (Ql : quat_le q 1.04).
  { destruct Qp as (D0 & D1 & D2 & D3). unfold Q_R in D0, D1, D2, D3. cbn [q0 q1 q2 q3] in D0, D1, D2, D3.
    assert (P2 : (Rabs (q0 p) <= 1.001 /\ Rabs (q1 p) <= 1.001 /\ Rabs (q2 p) <= 1.001 /\ Rabs (q3 p) <= 1.001)%R).
    { unfold p, T_mk, T_scale. cbn [q0 q1 q2 q3 v3x v3y v3z]. rewrite !Rabs_mult.
      assert (G : forall a, (Rabs a <= 1.001)%R -> (Rabs (sin (val theta / 2)) * Rabs a <= 1.001)%R).
      { intros a Ha. apply Rle_trans with (1 * 1.001)%R; [apply Rmult_le_compat; try apply Rabs_pos; assumption|lra]. }
      split; [lra|]. split; [apply G; exact U1|]. split; [apply G; exact U2|apply G; exact U3]. }
    destruct P2 as (A0 & A1 & A2 & A3).
    assert (K : forall s r, (Rabs (s - r) <= 0.0019)%R -> (Rabs r <= 1.001)%R -> (Rabs s <= 1.04)%R).
    { intros s r H K. replace s with ((s - r) + r)%R by ring. eapply Rle_trans; [apply Rabs_triang|]. lra. }
    split; [repeat split; [apply N0|apply N1|apply N2|apply N3]|]. repeat split; eapply K; eassumption. }
  assert (V0 : (0 <= V)%R) by (destruct Vx as [_ (X & _)]; pose proof (Rabs_pos (val (v3x x))); lra).
  assert (b100 : (4 * bpow radix2 100 <= bpow radix2 120)%R).
  { change 4%R with (bpow radix2 2). rewrite <- bpow_plus. apply bpow_le. lia. }
  assert (b1 : (1 <= bpow radix2 100)%R) by (change 1%R with (bpow radix2 0); apply bpow_le; lia).
  pose proof (rotate_error q x 1.04 V Ql Vx ltac:(lra) ltac:(lra) ltac:(lra)) as RE. cbv zeta in RE.
  destruct (textbook (Q_R q) (Q_R q) (V3_R x)) as (_ & _ & _ & _ & Tb). rewrite Tb in RE.
  assert (Er : Q_rotate idf q x = @q_rotate _ arith_f32 q x) by (destruct x; reflexivity). rewrite Er.
  set (r := @q_rotate _ arith_f32 q x) in *.
  set (rod := T_rodrigues (V3_R v) (val theta) (V3_R x)) in *.
  set (k := ((1 - T_dot (V3_R v) (V3_R v)) * (sin (val theta / 2) * sin (val theta / 2)))%R) in *.
  assert (Kb : (Rabs k <= 0.00001)%R).
  { unfold k. rewrite !Rabs_mult, Rabs_minus_sym. set (ss := Rabs (sin _)) in *.
    assert (0 <= ss)%R by apply Rabs_pos.
    apply Rle_trans with (0.00001 * (1 * 1))%R; [|lra]. apply Rmult_le_compat; [apply Rabs_pos|apply Rmult_le_pos; assumption|exact Uv|].
    apply Rmult_le_compat; assumption. }
  clearbody k rod.
  assert (S : (80 * bpow radix2 (-24) * (1.04 * 1.04 * V) + bpow radix2 (-145) * (V + 1) <= 0.000006 * V + bpow radix2 (-144))%R).
  { rewrite u24_eq. unfold u24.
    assert (A1 : (bpow radix2 (-145) <= / 1099511627776)%R) by (change (/ 1099511627776)%R with (bpow radix2 (-40)); apply bpow_le; lia).
    assert (A3 : (bpow radix2 (-145) * V <= / 1099511627776 * V)%R) by (apply Rmult_le_compat_r; lra).
    assert (A4 : (bpow radix2 (-145) <= bpow radix2 (-144))%R) by (apply bpow_le; lia).
    lra. }
  destruct Vx as [_ (X1 & X2 & X3)].
  assert (L : forall a b c d y, near (80 * bpow radix2 (-24) * (1.04 * 1.04 * V) + bpow radix2 (-145) * (V + 1)) a b ->
    (Rabs (b - (c + k * y)) <= 26 * (0.0019 * V))%R -> (Rabs y <= V)%R -> d = c -> near (0.05 * V + bpow radix2 (-144)) a d).
  { intros a b c d y [Fa H] H2 H3 ->. split; [exact Fa|].
    assert (H4 : (Rabs (k * y) <= 0.00001 * V)%R) by (rewrite Rabs_mult; apply Rmult_le_compat; trivial; apply Rabs_pos).
    apply Rabs_le_inv in H, H2, H4. apply Rabs_le. lra. }
  unfold v_near, T_add, T_scale in RP. cbn [v3x v3y v3z] in RP. destruct RP as (R1 & R2 & R3), RE as (E1 & E2 & E3).
  cbv zeta. split; [|split].
  - eapply L; [exact E1|exact R1|exact X1|reflexivity].
  - eapply L; [exact E2|exact R2|exact X2|reflexivity].
  - eapply L; [exact E3|exact R3|exact X3|reflexivity].
Qed.

(** ** C107: about a coordinate axis, then to Euler angles *)

Lemma zero_fmul : forall {E : Env} s, fin s -> fin (fmul F32_ZERO s) /\ val (fmul F32_ZERO s) = 0%R.
Proof.
  intros E s Fs. assert (Z : val F32_ZERO = 0%R) by (vm_compute; reflexivity).
  assert (R0 : rnd (val F32_ZERO * val s) = 0%R) by (rewrite Z, Rmult_0_l; apply round_0, valid_rnd_N).
  destruct (fmul_R F32_ZERO s eq_refl Fs) as [A B].
  - rewrite R0, Rabs_R0. apply bpow_gt_0.
  - split; [exact A|]. rewrite B. exact R0.
Qed.

Lemma axis_parts : forall {E : Env} theta, fin theta -> (Rabs (val theta) <= 8192)%R ->
  exists c s o,
  Q_axis_angle idf (mkV3 F32_ONE F32_ZERO F32_ZERO) theta = mkQ c s o o /\
  Q_axis_angle idf (mkV3 F32_ZERO F32_ONE F32_ZERO) theta = mkQ c o s o /\
  Q_axis_angle idf (mkV3 F32_ZERO F32_ZERO F32_ONE) theta = mkQ c o o s /\
  fin c /\ fin s /\ fin o /\ val o = 0%R /\
  (Rabs (val c - cos (val theta / 2)) <= 0.0016)%R /\ (Rabs (val s - sin (val theta / 2)) <= 0.0019)%R /\
  (Rabs (val c * val c + val s * val s - 1) <= 0.0068)%R.
Proof.
  intros E theta Ft Bt. set (t := F32_sin (fmul theta c_0_5)).
  exists (F32_cos (fmul theta c_0_5)), (fmul F32_ONE t), (fmul F32_ZERO t).
  assert (Z : val F32_ZERO = 0%R) by (vm_compute; reflexivity).
  destruct one_val as [_ O].
  destruct (axis_angle_acc idf (mkV3 F32_ONE F32_ZERO F32_ZERO) theta eq_refl eq_refl eq_refl Ft Bt) as (N0 & N1 & N2 & N3 & NN).
  { unfold idf. cbn [v3x v3y v3z]. rewrite Z, O. apply Rabs_le. lra. }
  unfold Q_axis_angle, idf in *. cbn [v3x v3y v3z q0 q1 q2 q3] in *.
  destruct (half_acc theta Ft Bt) as (Fh & Bh & Dh). destruct (sin_acc (fmul theta c_0_5) Fh ltac:(lra)) as [Fs _].
  fold t in N1, N2, N3, NN, Fs |- *.
  destruct (zero_fmul t Fs) as [F0 V0].
  destruct N0 as [G0 N0], N1 as [G1 N1]. rewrite O, Rmult_1_l in N1.
  unfold rsumsq, q_list in NN. cbn [fold_right q0 q1 q2 q3] in NN. rewrite V0 in NN.
  do 3 (split; [reflexivity|]). do 4 (split; [assumption|]). split; [exact N0|]. split; [exact N1|].
  apply Rabs_le_inv in NN. apply Rabs_le. lra.
Qed.

Lemma turn_real : forall c s C S, (C * C + S * S = 1)%R -> (Rabs (c - C) <= 0.0016)%R -> (Rabs (s - S) <= 0.0019)%R ->
  (Rabs (c * c + s * s - 1) <= 0.0068)%R ->
  (Rabs (2 * (c * s) - 2 * S * C) <= 0.0071)%R /\ (Rabs (1 - 2 * (s * s) - (C * C - S * S)) <= 0.0077)%R /\
  exists rho, (0.9861 <= rho <= 1.0139)%R /\ (rho * rho = (2 * (c * s)) * (2 * (c * s)) + (1 - 2 * (s * s)) * (1 - 2 * (s * s)))%R.
Proof.
  intros c s C S U Hc Hs N.
  pose proof (Rle_0_sqr C) as C2. pose proof (Rle_0_sqr S) as S2. pose proof (Rle_0_sqr c) as c2. pose proof (Rle_0_sqr s) as s2. unfold Rsqr in *.
  assert (AC : (Rabs C <= 1)%R) by (apply Rabs_le; split; [apply Rnot_lt_le; intro; assert (1 < (- C) * (- C))%R by (replace 1%R with (1 * 1)%R by ring; apply Rmult_le_0_lt_compat; lra); lra|
    apply Rnot_lt_le; intro; assert (1 < C * C)%R by (replace 1%R with (1 * 1)%R by ring; apply Rmult_le_0_lt_compat; lra); lra]).
  assert (AS : (Rabs S <= 1)%R) by (apply Rabs_le; split; [apply Rnot_lt_le; intro; assert (1 < (- S) * (- S))%R by (replace 1%R with (1 * 1)%R by ring; apply Rmult_le_0_lt_compat; lra); lra|
    apply Rnot_lt_le; intro; assert (1 < S * S)%R by (replace 1%R with (1 * 1)%R by ring; apply Rmult_le_0_lt_compat; lra); lra]).
  assert (M : forall a b x y, (Rabs a <= x)%R -> (Rabs b <= y)%R -> (Rabs (a * b) <= x * y)%R).
  { intros a b x y A B. rewrite Rabs_mult. apply Rmult_le_compat; trivial; apply Rabs_pos. }
  pose proof (M _ _ _ _ AC Hs) as M1. pose proof (M _ _ _ _ AS Hc) as M2. pose proof (M _ _ _ _ Hc Hs) as M3.
  pose proof (M _ _ _ _ AS Hs) as M4. pose proof (M _ _ _ _ Hs Hs) as M5.
  apply Rabs_le_inv in M1, M2, M3, M4, M5.
  split; [|split].
  - replace (2 * (c * s) - 2 * S * C)%R with (2 * (C * (s - S)) + 2 * (S * (c - C)) + 2 * ((c - C) * (s - S)))%R by ring. apply Rabs_le. lra.
  - replace (1 - 2 * (s * s) - (C * C - S * S))%R with (- 4 * (S * (s - S)) - 2 * ((s - S) * (s - S)) + (1 - (C * C + S * S)))%R by ring. rewrite U. apply Rabs_le. lra.
  - set (g := ((2 * (c * s)) * (2 * (c * s)) + (1 - 2 * (s * s)) * (1 - 2 * (s * s)))%R).
    assert (G : g = (1 + 4 * ((s * s) * (c * c + s * s - 1)))%R) by (unfold g; ring).
    pose proof (Rabs_le_inv _ _ N) as N'.
    assert (K : (Rabs ((s * s) * (c * c + s * s - 1)) <= 1.0068 * 0.0068)%R) by (apply M; [apply Rabs_le; lra|exact N]).
    apply Rabs_le_inv in K. rewrite G. exists (sqrt (1 + 4 * ((s * s) * (c * c + s * s - 1)))). split; [split|].
    + rewrite <- (sqrt_square 0.9861) by lra. apply sqrt_le_1_alt. lra.
    + rewrite <- (sqrt_square 1.0139) by lra. apply sqrt_le_1_alt. lra.
    + apply sqrt_sqrt. lra.
Qed.

Lemma close_unit : forall rho x X Y, (0.9861 <= rho <= 1.0139)%R -> (Rabs x <= 1)%R -> (Rabs (rho * x - X) <= 0.00284 * rho + 0.0000076)%R ->
  (Rabs (X - Y) <= 0.0077)%R -> (Rabs (x - Y) <= 0.025)%R.
Proof.
  intros rho x X Y R B H K.
  assert (M : (Rabs ((rho - 1) * x) <= 0.0139 * 1)%R).
  { rewrite Rabs_mult. apply Rmult_le_compat; try apply Rabs_pos; trivial. apply Rabs_le. lra. }
  apply Rabs_le_inv in H, K, M. apply Rabs_le. lra.
Qed.

Lemma near_pole : forall rho x, (0.1 <= rho)%R -> (Rabs (rho * x - rho) <= 0.00284 * rho + 0.0000076)%R -> (Rabs (x - 1) <= 0.003)%R.
Proof.
  intros rho x R H. apply Rmult_le_reg_l with rho; [lra|].
  replace (rho * Rabs (x - 1))%R with (Rabs (rho * x - rho)); [lra|].
  rewrite <- (Rabs_pos_eq rho) at 3 by lra. rewrite <- Rabs_mult. f_equal. ring.
Qed.
Lemma near_zero : forall rho x, (0.1 <= rho)%R -> (Rabs (rho * x - 0) <= 0.00284 * rho + 0.0000076)%R -> (Rabs x <= 0.003)%R.
Proof.
  intros rho x R H. apply Rmult_le_reg_l with rho; [lra|].
  replace (rho * Rabs x)%R with (Rabs (rho * x - 0)); [lra|].
  rewrite <- (Rabs_pos_eq rho) at 2 by lra. rewrite <- Rabs_mult. f_equal. ring.
Qed.

Ltac eu := apply f_equal; ring.

Lemma axis_x_euler : forall {E : Env} theta, fin theta -> (Rabs (val theta) <= 8192)%R ->
  exists roll pitch yaw, Q_to_euler (Q_axis_angle idf (mkV3 F32_ONE F32_ZERO F32_ZERO) theta) = Ok (roll, pitch, yaw) /\
  (fin roll /\ fin pitch /\ fin yaw) /\
  ((Rabs (sin (val roll) - sin (val theta)) <= 0.025)%R /\ (Rabs (cos (val roll) - cos (val theta)) <= 0.025)%R) /\
  ((Rabs (val pitch) <= val c_FRAC_PI_2)%R /\ (Rabs (sin (val pitch)) <= 0.021)%R) /\
  ((Rabs (sin (val yaw)) <= 0.003)%R /\ (Rabs (cos (val yaw) - 1) <= 0.003)%R).
Proof.
  intros E theta Ft Bt. destruct (axis_parts theta Ft Bt) as (c & s & o & -> & _ & _ & Fc & Fs & Fo & Vo & Hc & Hs & N).
  destruct (half_angle (val theta)) as (HA & HB & U).
  destruct (turn_real _ _ _ _ U Hc Hs N) as (T1 & T2 & rho & R1 & R2).
  pose proof (euler_accuracy (mkQ c s o o)) as K. cbv zeta in K. unfold fin_quat, rsumsq, q_list in K. cbn [fold_right q0 q1 q2 q3] in K. rewrite Vo in K.
  destruct (K ltac:(tauto) ltac:(apply Rabs_le_inv in N; lra) ltac:(apply Rabs_le; lra) rho 1%R ltac:(lra) ltac:(lra) ltac:(rewrite R2; ring) ltac:(ring))
    as (roll & pitch & yaw & Eq & Fr & Fp & Fy & A1 & A2 & A3 & A4 & A5 & A6). clear K.
  exists roll, pitch, yaw. split; [exact Eq|]. split; [tauto|].
  split; [split|split; [split|split]].
  - rewrite HB. eapply close_unit; [exact R1|apply Rabs_le, SIN_bound|exact A1|].
    eapply Rle_trans; [|eapply Rle_trans; [exact T1|lra]]. right. eu.
  - rewrite HA. eapply close_unit; [exact R1|apply Rabs_le, COS_bound|exact A2|].
    eapply Rle_trans; [|exact T2]. right. eu.
  - exact A3.
  - eapply Rle_trans; [|exact A4]. right. eu.
  - apply (near_zero 1); [lra|]. eapply Rle_trans; [|exact A5]. right. eu.
  - apply (near_pole 1); [lra|]. eapply Rle_trans; [|exact A6]. right. eu.
Qed.

Lemma axis_z_euler : forall {E : Env} theta, fin theta -> (Rabs (val theta) <= 8192)%R ->
  exists roll pitch yaw, Q_to_euler (Q_axis_angle idf (mkV3 F32_ZERO F32_ZERO F32_ONE) theta) = Ok (roll, pitch, yaw) /\
  (fin roll /\ fin pitch /\ fin yaw) /\
  ((Rabs (sin (val roll)) <= 0.003)%R /\ (Rabs (cos (val roll) - 1) <= 0.003)%R) /\
  ((Rabs (val pitch) <= val c_FRAC_PI_2)%R /\ (Rabs (sin (val pitch)) <= 0.021)%R) /\
  ((Rabs (sin (val yaw) - sin (val theta)) <= 0.025)%R /\ (Rabs (cos (val yaw) - cos (val theta)) <= 0.025)%R).
Proof.
  intros E theta Ft Bt. destruct (axis_parts theta Ft Bt) as (c & s & o & _ & _ & -> & Fc & Fs & Fo & Vo & Hc & Hs & N).
  destruct (half_angle (val theta)) as (HA & HB & U).
  destruct (turn_real _ _ _ _ U Hc Hs N) as (T1 & T2 & rho & R1 & R2).
  pose proof (euler_accuracy (mkQ c o o s)) as K. cbv zeta in K. unfold fin_quat, rsumsq, q_list in K. cbn [fold_right q0 q1 q2 q3] in K. rewrite Vo in K.
  destruct (K ltac:(tauto) ltac:(apply Rabs_le_inv in N; lra) ltac:(apply Rabs_le; lra) 1%R rho ltac:(lra) ltac:(lra) ltac:(ring) ltac:(rewrite R2; ring))
    as (roll & pitch & yaw & Eq & Fr & Fp & Fy & A1 & A2 & A3 & A4 & A5 & A6). clear K.
  exists roll, pitch, yaw. split; [exact Eq|]. split; [tauto|].
  split; [split|split; [split|split]].
  - apply (near_zero 1); [lra|]. eapply Rle_trans; [|exact A1]. right. eu.
  - apply (near_pole 1); [lra|]. eapply Rle_trans; [|exact A2]. right. eu.
  - exact A3.
  - eapply Rle_trans; [|exact A4]. right. eu.
  - rewrite HB. eapply close_unit; [exact R1|apply Rabs_le, SIN_bound|exact A5|].
    eapply Rle_trans; [|eapply Rle_trans; [exact T1|lra]]. right. eu.
  - rewrite HA. eapply close_unit; [exact R1|apply Rabs_le, COS_bound|exact A6|].
    eapply Rle_trans; [|exact T2]. right. eu.
Qed.

Lemma axis_y_euler : forall {E : Env} theta, fin theta -> (Rabs (val theta) <= 8192)%R ->
  (0.13 <= cos (val theta))%R ->
  exists roll pitch yaw, Q_to_euler (Q_axis_angle idf (mkV3 F32_ZERO F32_ONE F32_ZERO) theta) = Ok (roll, pitch, yaw) /\
  (fin roll /\ fin pitch /\ fin yaw) /\
  ((Rabs (sin (val roll)) <= 0.003)%R /\ (Rabs (cos (val roll) - 1) <= 0.003)%R) /\
  ((Rabs (val pitch) <= val c_FRAC_PI_2)%R /\ (Rabs (sin (val pitch) - sin (val theta)) <= 0.029)%R) /\
  ((Rabs (sin (val yaw)) <= 0.003)%R /\ (Rabs (cos (val yaw) - 1) <= 0.003)%R).
Proof.
  intros E theta Ft Bt Hcos. destruct (axis_parts theta Ft Bt) as (c & s & o & _ & -> & _ & Fc & Fs & Fo & Vo & Hc & Hs & N).
  destruct (half_angle (val theta)) as (HA & HB & U).
  destruct (turn_real _ _ _ _ U Hc Hs N) as (T1 & T2 & _).
  rewrite <- HA in T2. rewrite <- HB in T1.
  assert (Sb : (Rabs (sin (val theta)) <= 0.9916)%R).
  { apply Rabs_le. pose proof (sin2_cos2 (val theta)) as P. unfold Rsqr in P.
    assert (0.13 * 0.13 <= cos (val theta) * cos (val theta))%R by (apply Rmult_le_compat; lra).
    split; apply Rnot_lt_le; intro L.
    - assert (0.9916 * 0.9916 < (- sin (val theta)) * (- sin (val theta)))%R by (apply Rmult_le_0_lt_compat; lra). lra.
    - assert (0.9916 * 0.9916 < sin (val theta) * sin (val theta))%R by (apply Rmult_le_0_lt_compat; lra). lra. }
  set (rho := (1 - 2 * (val s * val s))%R) in *.
  assert (Rh : (0.12 <= rho)%R) by (apply Rabs_le_inv in T2; lra).
  pose proof (euler_accuracy (mkQ c o s o)) as K. cbv zeta in K. unfold fin_quat, rsumsq, q_list in K. cbn [fold_right q0 q1 q2 q3] in K. rewrite Vo in K.
  destruct (K ltac:(tauto) ltac:(apply Rabs_le_inv in N; lra) ltac:(apply Rabs_le_inv in T1, Sb; apply Rabs_le; lra) rho rho ltac:(lra) ltac:(lra) ltac:(unfold rho; ring) ltac:(unfold rho; ring))
    as (roll & pitch & yaw & Eq & Fr & Fp & Fy & A1 & A2 & A3 & A4 & A5 & A6). clear K.
  exists roll, pitch, yaw. split; [exact Eq|]. split; [tauto|].
  split; [split|split; [split|split]].
  - apply (near_zero rho); [lra|]. eapply Rle_trans; [|exact A1]. right. eu.
  - apply (near_pole rho); [lra|]. eapply Rle_trans; [|exact A2]. right. unfold rho. eu.
  - exact A3.
  - apply Rabs_le_inv in A4, T1. apply Rabs_le. lra.
  - apply (near_zero rho); [lra|]. eapply Rle_trans; [|exact A5]. right. eu.
  - apply (near_pole rho); [lra|]. eapply Rle_trans; [|exact A6]. right. unfold rho. eu.
Qed.

(** A quarter turn about y: 2wy comes out above 1, and pitch as 4.2e-38 instead of pi/2; roll = yaw = pi. *)
Lemma axis_y_pole : forall {E : Env}, exists theta roll pitch yaw, theta = c_FRAC_PI_2 /\
  Q_to_euler (Q_axis_angle idf (mkV3 F32_ZERO F32_ONE F32_ZERO) theta) = Ok (roll, pitch, yaw) /\
  fin pitch /\ (Rabs (val pitch) <= 0.000001)%R /\ roll = c_PI /\ yaw = c_PI.
Proof.
  intros E. set (q := Q_axis_angle idf (mkV3 F32_ZERO F32_ONE F32_ZERO) c_FRAC_PI_2).
  exists c_FRAC_PI_2, c_PI, (from_bits 23508580), c_PI.
  split; [reflexivity|]. split; [|split; [|split; [|split]]].
  - fold q. assert (Ep : F32_asin (pitch_arg q) = Ok (from_bits 23508580)) by (apply ok_bits; vm_compute; reflexivity).
    unfold Q_to_euler. unfold pitch_arg in Ep. rewrite Ep. unfold bind. apply (f_equal (@Ok _)).
    apply f_equal2; [apply f_equal2; [|reflexivity]|]; apply to_bits_inj; vm_compute; reflexivity.
  - reflexivity.
  - lit 23508580. rewrite Rabs_pos_eq. 2: { pose proof (bpow_gt_0 radix2 (-149)). bpow_lit. lra. }
    bpow_lit. lra.
  - reflexivity.
  - reflexivity.
Qed.

Lemma rodrigues_unit : forall v t x, T_dot v v = 1%R ->
  T_rotate (T_mk (cos (t / 2)) (T_scale (sin (t / 2)) v)) x = T_rodrigues v t x.
Proof.
  intros v t x H. rewrite rodrigues_exact, H. destruct (T_rodrigues v t x) as [a b c], x as [d e f].
  unfold T_add, T_scale. cbn [v3x v3y v3z]. f_equal; ring.
Qed.
