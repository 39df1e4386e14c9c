(** * Proofs: quaternions in f32 *)

From Coq Require Import ZArith Reals Bool List Lia Lra Psatz.
From Flocq Require Import Core IEEE754.BinarySingleNaN IEEE754.Binary IEEE754.Bits Plus_error.
From Verif Require Import Base Spec Float Vector Quaternion F32Lemmas BitLemmas P_Trunc P_Floor Literals ErrLemmas P_RoundEdge
  NanLemmas P_Euclid P_Roots P_InvSqrt P_Recip P_Vector P_VecInt P_SumSq P_VecF32 P_Stats QuatReal.
Import ListNotations.
Open Scope Z_scope.

(** [x] is finite, stands for the real [X] of magnitude at most [B], with error at most [e]. *)
Definition tr (x : f32) (X B e : R) : Prop :=
  fin x /\ (Rabs X <= B)%R /\ (Rabs (val x - X) <= e)%R.

Definition eta : R := bpow radix2 (-150).
Lemma eta_pos : (0 < eta)%R.
Proof. apply bpow_gt_0. Qed.

Lemma tr_in : forall x B, fin x -> (Rabs (val x) <= B)%R -> tr x (val x) B 0.
Proof. intros x B F H. split; [exact F|]. split; [exact H|]. unfold Rminus. rewrite Rplus_opp_r, Rabs_R0. lra. Qed.

Lemma tr_bound : forall x X B e, tr x X B e -> (Rabs (val x) <= B + e)%R /\ (0 <= B)%R /\ (0 <= e)%R.
Proof.
  intros x X B e (F & A & C). pose proof (Rabs_pos X). pose proof (Rabs_pos (val x - X)).
  split; [|lra]. replace (val x) with (X + (val x - X))%R by ring. eapply Rle_trans; [apply Rabs_triang|]. lra.
Qed.

Lemma tr_mul : forall {E : Env} x X A a y Y B b, tr x X A a -> tr y Y B b ->
  ((A + a) * (B + b) <= bpow radix2 127)%R ->
  tr (fmul x y) (X * Y) (A * B) (A * b + B * a + a * b + u24 * ((A + a) * (B + b)) + eta).
Proof.
  intros E x X A a y Y B b Hx Hy L. destruct (tr_bound _ _ _ _ Hx) as (Bx & A0 & a0). destruct (tr_bound _ _ _ _ Hy) as (By & B0 & b0).
  destruct Hx as (Fx & HX & Ex). destruct Hy as (Fy & HY & Ey).
  assert (P : (Rabs (val x * val y) <= (A + a) * (B + b))%R).
  { rewrite Rabs_mult. apply Rmult_le_compat; trivial; apply Rabs_pos. }
  destruct (fmul_R x y Fx Fy) as [M1 M2].
  { apply (small_lt_128 127); [lia|]. lra. }
  split; [exact M1|]. split.
  - rewrite Rabs_mult. apply Rmult_le_compat; trivial; apply Rabs_pos.
  - rewrite M2. pose proof (rnd_err_mixed (val x * val y)) as R. rewrite u24_eq in R. fold eta in R.
    assert (D : (Rabs (val x * val y - X * Y) <= A * b + B * a + a * b)%R).
    { replace (val x * val y - X * Y)%R with (X * (val y - Y) + Y * (val x - X) + (val x - X) * (val y - Y))%R by ring.
      pose proof (Rabs_triang (X * (val y - Y) + Y * (val x - X)) ((val x - X) * (val y - Y))) as T1.
      pose proof (Rabs_triang (X * (val y - Y)) (Y * (val x - X))) as T2. rewrite !Rabs_mult in *.
      assert (Rabs X * Rabs (val y - Y) <= A * b)%R by (apply Rmult_le_compat; trivial; apply Rabs_pos).
      assert (Rabs Y * Rabs (val x - X) <= B * a)%R by (apply Rmult_le_compat; trivial; apply Rabs_pos).
      assert (Rabs (val x - X) * Rabs (val y - Y) <= a * b)%R by (apply Rmult_le_compat; trivial; apply Rabs_pos). lra. }
    replace (rnd (val x * val y) - X * Y)%R with ((rnd (val x * val y) - val x * val y) + (val x * val y - X * Y))%R by ring.
    eapply Rle_trans; [apply Rabs_triang|].
    assert (u24 * Rabs (val x * val y) <= u24 * ((A + a) * (B + b)))%R by (apply Rmult_le_compat_l; [unfold u24; lra|exact P]).
    lra.
Qed.

Lemma tr_add : forall {E : Env} x X A a y Y B b, tr x X A a -> tr y Y B b ->
  (A + a + (B + b) <= bpow radix2 127)%R ->
  tr (fadd x y) (X + Y) (A + B) (a + b + u24 * (A + a + (B + b))).
Proof.
  intros E x X A a y Y B b Hx Hy L. destruct (tr_bound _ _ _ _ Hx) as (Bx & A0 & a0). destruct (tr_bound _ _ _ _ Hy) as (By & B0 & b0).
  destruct Hx as (Fx & HX & Ex). destruct Hy as (Fy & HY & Ey).
  assert (P : (Rabs (val x + val y) <= A + a + (B + b))%R).
  { eapply Rle_trans; [apply Rabs_triang|]. lra. }
  destruct (fadd_R x y Fx Fy) as [M1 M2].
  { apply (small_lt_128 127); [lia|]. lra. }
  split; [exact M1|]. split; [eapply Rle_trans; [apply Rabs_triang|]; lra|].
  rewrite M2. pose proof (rnd_add_rel (val x) (val y) (fmt_val x) (fmt_val y)) as R.
  replace (rnd (val x + val y) - (X + Y))%R with ((rnd (val x + val y) - (val x + val y)) + ((val x - X) + (val y - Y)))%R by ring.
  eapply Rle_trans; [apply Rabs_triang|]. pose proof (Rabs_triang (val x - X) (val y - Y)).
  assert (u24 * Rabs (val x + val y) <= u24 * (A + a + (B + b)))%R by (apply Rmult_le_compat_l; [unfold u24; lra|exact P]). lra.
Qed.

Lemma tr_sub : forall {E : Env} x X A a y Y B b, tr x X A a -> tr y Y B b ->
  (A + a + (B + b) <= bpow radix2 127)%R ->
  tr (fsub x y) (X - Y) (A + B) (a + b + u24 * (A + a + (B + b))).
Proof.
  intros E x X A a y Y B b Hx Hy L. destruct (tr_bound _ _ _ _ Hx) as (Bx & A0 & a0). destruct (tr_bound _ _ _ _ Hy) as (By & B0 & b0).
  destruct Hx as (Fx & HX & Ex). destruct Hy as (Fy & HY & Ey).
  assert (P : (Rabs (val x - val y) <= A + a + (B + b))%R).
  { unfold Rminus. eapply Rle_trans; [apply Rabs_triang|]. rewrite Rabs_Ropp. lra. }
  destruct (fsub_R x y Fx Fy) as [M1 M2].
  { apply (small_lt_128 127); [lia|]. lra. }
  split; [exact M1|]. split; [unfold Rminus; eapply Rle_trans; [apply Rabs_triang|]; rewrite Rabs_Ropp; lra|].
  rewrite M2. pose proof (rnd_add_rel (val x) (- val y) (fmt_val x) (fmt_opp _ (fmt_val y))) as R.
  change (val x + - val y)%R with (val x - val y)%R in R.
  replace (rnd (val x - val y) - (X - Y))%R with ((rnd (val x - val y) - (val x - val y)) + ((val x - X) + - (val y - Y)))%R by ring.
  eapply Rle_trans; [apply Rabs_triang|]. pose proof (Rabs_triang (val x - X) (- (val y - Y))). rewrite Rabs_Ropp in *.
  assert (u24 * Rabs (val x - val y) <= u24 * (A + a + (B + b)))%R by (apply Rmult_le_compat_l; [unfold u24; lra|exact P]). lra.
Qed.

Lemma tr_weaken : forall x X A a B b, tr x X A a -> (A <= B)%R -> (a <= b)%R -> tr x X B b.
Proof. intros x X A a B b (F & H & K) L M. split; [exact F|]. split; lra. Qed.

(** Products of inputs, then sums of four of them. *)
Lemma tr_prod : forall {E : Env} x y P Q, fin x -> fin y -> (Rabs (val x) <= P)%R -> (Rabs (val y) <= Q)%R ->
  (P * Q <= bpow radix2 120)%R -> tr (fmul x y) (val x * val y) (P * Q) (u24 * (P * Q) + eta).
Proof.
  intros E x y P Q Fx Fy HP HQ L. pose proof (bpow_le radix2 120 127 ltac:(lia)).
  eapply tr_weaken; [apply (tr_mul x (val x) P 0 y (val y) Q 0); [apply tr_in; assumption|apply tr_in; assumption|]|lra|].
  - rewrite !Rplus_0_r. lra.
  - rewrite !Rplus_0_r. lra.
Qed.

Lemma bp127 : (bpow radix2 127 = 128 * bpow radix2 120)%R.
Proof. change 127 with (7 + 120). rewrite bpow_plus. reflexivity. Qed.
Lemma eta_small : (eta <= bpow radix2 120)%R.
Proof. apply bpow_le. lia. Qed.

Definition quat_le (q : Quat f32) (B : R) : Prop :=
  (fin (q0 q) /\ fin (q1 q) /\ fin (q2 q) /\ fin (q3 q)) /\
  (Rabs (val (q0 q)) <= B /\ Rabs (val (q1 q)) <= B /\ Rabs (val (q2 q)) <= B /\ Rabs (val (q3 q)) <= B)%R.

Definition near (e : R) (x : f32) (X : R) : Prop := fin x /\ (Rabs (val x - X) <= e)%R.

Ltac four H L :=
  let HH := fresh "HH" in
  eapply tr_weaken; [|apply Rle_refl|];
  [ repeat first [ eapply tr_add | eapply tr_sub ];
    try (eapply tr_prod; eauto; fail);
    pose proof eta_pos; pose proof eta_small; rewrite bp127; unfold u24; lra
  | pose proof eta_pos; unfold u24; lra ].

Lemma mul_error : forall {E : Env} p q P Q, quat_le p P -> quat_le q Q -> (P * Q <= bpow radix2 120)%R ->
  let r := @q_mul _ arith_f32 p q in let s := Rq_mul (Q_R p) (Q_R q) in
  let e := (14 * bpow radix2 (-24) * (P * Q) + bpow radix2 (-147))%R in
  near e (q0 r) (q0 s) /\ near e (q1 r) (q1 s) /\ near e (q2 r) (q2 s) /\ near e (q3 r) (q3 s).
Proof.
  intros E p q P Q [(F0 & F1 & F2 & F3) (H0 & H1 & H2 & H3)] [(G0 & G1 & G2 & G3) (K0 & K1 & K2 & K3)] L r s e.
  assert (PQ : (0 <= P * Q)%R).
  { apply Rmult_le_pos; [pose proof (Rabs_pos (val (q0 p)))|pose proof (Rabs_pos (val (q0 q)))]; lra. }
  assert (e147 : (bpow radix2 (-147) = 8 * eta)%R).
  { unfold eta. change (-147) with (3 + -150). rewrite bpow_plus. reflexivity. }
  assert (T : forall x X, tr x X (P * Q + P * Q + P * Q + P * Q) e -> near e x X).
  { intros x X (A & _ & B). split; assumption. }
  unfold e in *. rewrite u24_eq, e147 in *. unfold r, s, q_mul, Rq_mul, q_mul. cbn [q0 q1 q2 q3 aadd asub amul arith_f32 arith_R Q_R].
  split; [|split; [|split]]; apply T; four PQ L.
Qed.

(** ** rotate *)

Definition vec_le (v : Vector3d f32) (B : R) : Prop :=
  (fin (v3x v) /\ fin (v3y v) /\ fin (v3z v)) /\
  (Rabs (val (v3x v)) <= B /\ Rabs (val (v3y v)) <= B /\ Rabs (val (v3z v)) <= B)%R.

Ltac side := pose proof eta_pos; pose proof eta_small; rewrite ?bp127; unfold u24; lra.

(** A signed sum of four products of components. *)
Ltac four_terms :=
  eapply tr_weaken;
  [ repeat first [ eapply tr_add | eapply tr_sub ]; try (eapply tr_prod; eauto; fail); side | side | side ].

(** Twice a signed sum of two products. *)
Lemma twice : forall {E : Env} x X S, (0 <= S <= bpow radix2 120)%R ->
  tr x X (S + S) (u24 * S + eta + (u24 * S + eta) + u24 * (S + (u24 * S + eta) + (S + (u24 * S + eta)))) ->
  tr (fmul c_2 x) (2 * X) (4 * S) (15 * u24 * S + 7 * eta).
Proof.
  intros E x X S HS H. assert (C : tr c_2 2 2 0).
  { split; [reflexivity|]. rewrite (Rabs_pos_eq 2), (proj2 c_2_val) by lra. split; [lra|].
    unfold Rminus. rewrite Rplus_opp_r, Rabs_R0. lra. }
  pose proof eta_pos. pose proof eta_small.
  eapply tr_weaken; [apply (tr_mul _ _ _ _ _ _ _ _ C H)|lra|].
  - side.
  - unfold u24. lra.
Qed.

Lemma rot_row : forall {E : Env} c1 C1 c2 C2 c3 C3 v S V, vec_le v V -> (0 <= S <= bpow radix2 120)%R ->
  (V <= bpow radix2 120)%R -> (S * V <= bpow radix2 120)%R ->
  tr c1 C1 (4 * S) (15 * u24 * S + 7 * eta) -> tr c2 C2 (4 * S) (15 * u24 * S + 7 * eta) ->
  tr c3 C3 (4 * S) (15 * u24 * S + 7 * eta) ->
  near (80 * bpow radix2 (-24) * (S * V) + bpow radix2 (-145) * (V + 1))
    (fadd (fadd (fmul c1 (v3x v)) (fmul c2 (v3y v))) (fmul c3 (v3z v)))
    (C1 * val (v3x v) + C2 * val (v3y v) + C3 * val (v3z v))%R.
Proof.
  intros E c1 C1 c2 C2 c3 C3 v S V [(Fx & Fy & Fz) (Hx & Hy & Hz)] HS HV L T1 T2 T3.
  assert (V0 : (0 <= V)%R) by (pose proof (Rabs_pos (val (v3x v))); lra).
  assert (SV : (0 <= S * V)%R) by (apply Rmult_le_pos; lra).
  assert (e145 : (bpow radix2 (-145) = 32 * eta)%R).
  { unfold eta. change (-145) with (5 + -150). rewrite bpow_plus. reflexivity. }
  assert (e30 : (eta * bpow radix2 120 = bpow radix2 (-30))%R) by (unfold eta; rewrite <- bpow_plus; reflexivity).
  assert (l30 : (bpow radix2 (-30) <= 1)%R) by (change 1%R with (bpow radix2 0); apply bpow_le; lia).
  assert (l1 : (1 <= bpow radix2 120)%R) by (change 1%R with (bpow radix2 0); apply bpow_le; lia).
  pose proof eta_pos as E0. pose proof eta_small as E1.
  assert (EV : (0 <= eta * V <= bpow radix2 (-30))%R).
  { split; [apply Rmult_le_pos; lra|]. rewrite <- e30. apply Rmult_le_compat_l; lra. }
  assert (M : forall c C x, tr c C (4 * S) (15 * u24 * S + 7 * eta) -> fin x -> (Rabs (val x) <= V)%R ->
    tr (fmul c x) (C * val x) (4 * (S * V)) (19.5 * u24 * (S * V) + 8 * (eta * V) + eta)).
  { intros c C x T F H. eapply tr_weaken; [apply (tr_mul _ _ _ _ _ _ _ _ T (tr_in x V F H))| |].
    - rewrite bp127. unfold u24. lra.
    - lra.
    - unfold u24. lra. }
  assert (R : tr (fadd (fadd (fmul c1 (v3x v)) (fmul c2 (v3y v))) (fmul c3 (v3z v)))
    (C1 * val (v3x v) + C2 * val (v3y v) + C3 * val (v3z v))
    (12 * (S * V)) (80 * u24 * (S * V) + 32 * eta * (V + 1))).
  { eapply tr_weaken.
    - eapply tr_add; [eapply tr_add| |].
      + exact (M c1 C1 _ T1 Fx Hx). + exact (M c2 C2 _ T2 Fy Hy).
      + rewrite bp127. unfold u24. lra.
      + exact (M c3 C3 _ T3 Fz Hz).
      + rewrite bp127. unfold u24. lra.
    - lra.
    - unfold u24. lra. }
  destruct R as (A & _ & B). split; [exact A|]. rewrite u24_eq, e145. exact B.
Qed.

Lemma rotate_error : forall {E : Env} q v Q V, quat_le q Q -> vec_le v V ->
  (Q * Q <= bpow radix2 120)%R -> (V <= bpow radix2 120)%R -> (Q * Q * V <= bpow radix2 120)%R ->
  let r := @q_rotate _ arith_f32 q v in let s := Rq_rotate (Q_R q) (V3_R v) in
  let e := (80 * bpow radix2 (-24) * (Q * Q * V) + bpow radix2 (-145) * (V + 1))%R in
  near e (v3x r) (v3x s) /\ near e (v3y r) (v3y s) /\ near e (v3z r) (v3z s).
Proof.
  intros E q v Q V Hq Hv L1 L2 L3 r s e. pose proof Hq as [(F0 & F1 & F2 & F3) (H0 & H1 & H2 & H3)].
  assert (S0 : (0 <= Q * Q)%R).
  { apply Rmult_le_pos; pose proof (Rabs_pos (val (q0 q))); lra. }
  set (S := (Q * Q)%R) in *.
  assert (TW : forall x X, tr x X (S + S) (u24 * S + eta + (u24 * S + eta) + u24 * (S + (u24 * S + eta) + (S + (u24 * S + eta)))) ->
    tr (fmul c_2 x) (2 * X) (4 * S) (15 * u24 * S + 7 * eta)) by (intros; apply twice; [lra|assumption]).
  assert (P : forall a b, fin a -> fin b -> (Rabs (val a) <= Q)%R -> (Rabs (val b) <= Q)%R ->
    tr (fmul a b) (val a * val b) S (u24 * S + eta)) by (intros; apply tr_prod; assumption).
  pose proof eta_pos as E0. pose proof eta_small as E1.
  unfold r, s, e. unfold q_rotate, Rq_rotate, q_rotate.
  cbn [q0 q1 q2 q3 v3x v3y v3z aadd asub amul a2 arith_f32 arith_R Q_R V3_R].
  assert (B2 : (S + (u24 * S + eta) + (S + (u24 * S + eta)) <= bpow radix2 127)%R) by (rewrite bp127; unfold u24; lra).
  split; [|split]; apply rot_row; trivial; try lra;
    first [ apply TW; (eapply tr_add || eapply tr_sub); [apply P; assumption|apply P; assumption|exact B2]
          | eapply tr_weaken;
            [ repeat (eapply tr_add || eapply tr_sub); try (apply P; assumption); rewrite bp127; unfold u24; lra
            | lra | unfold u24; lra ] ].
Qed.

(** ** identity *)

Lemma add_zero_val : forall {E : Env} x z, fin x -> fin z -> val z = 0%R ->
  (fin (fadd x z) /\ val (fadd x z) = val x) /\ (fin (fsub x z) /\ val (fsub x z) = val x) /\
  (fin (fadd z x) /\ val (fadd z x) = val x).
Proof.
  intros E x z Fx Fz V.
  assert (B : (Rabs (rnd (val x)) < bpow radix2 128)%R).
  { rewrite (rnd_fmt _ (fmt_val x)). apply (abs_B2R_lt_emax 24 128). }
  split; [|split].
  - destruct (fadd_R x z Fx Fz) as [A C]; rewrite V, Rplus_0_r in *; [exact B|].
    split; [exact A|]. rewrite C. apply rnd_fmt, fmt_val.
  - destruct (fsub_R x z Fx Fz) as [A C]; rewrite V, Rminus_0_r in *; [exact B|].
    split; [exact A|]. rewrite C. apply rnd_fmt, fmt_val.
  - destruct (fadd_R z x Fz Fx) as [A C]; rewrite V, Rplus_0_l in *; [exact B|].
    split; [exact A|]. rewrite C. apply rnd_fmt, fmt_val.
Qed.

(** [v] holds the value [X]. *)
Definition is (x : f32) (X : R) : Prop := fin x /\ val x = X.
Lemma is_addz : forall {E : Env} x X z, is x X -> is z 0 -> is (fadd x z) X.
Proof. intros E x X z [F <-] [Fz Vz]. apply (add_zero_val x z F Fz Vz). Qed.
Lemma is_subz : forall {E : Env} x X z, is x X -> is z 0 -> is (fsub x z) X.
Proof. intros E x X z [F <-] [Fz Vz]. apply (add_zero_val x z F Fz Vz). Qed.
Lemma is_zadd : forall {E : Env} x X z, is x X -> is z 0 -> is (fadd z x) X.
Proof. intros E x X z [F <-] [Fz Vz]. apply (add_zero_val x z F Fz Vz). Qed.
Lemma is_mulz : forall {E : Env} x, fin x -> is (fmul F32_ZERO x) 0 /\ is (fmul x F32_ZERO) 0.
Proof. intros E x F. destruct (zero_mul false x F) as (A & B & C & D). repeat split; assumption. Qed.
Lemma is_mul1 : forall {E : Env} x, fin x -> is (fmul F32_ONE x) (val x) /\ is (fmul x F32_ONE) (val x).
Proof.
  intros E x F. destruct (fmul_one x F) as [A B]. split; [|split; assumption].
  destruct (fmul_comm F32_ONE x) as [->|[_ N]]; [split; assumption|].
  exfalso. unfold nan in N. rewrite (fin_not_nan _ A) in N. discriminate.
Qed.

Definition fin_quat (q : Quat f32) : Prop := fin (q0 q) /\ fin (q1 q) /\ fin (q2 q) /\ fin (q3 q).
Definition feq_quat (p q : Quat f32) : Prop :=
  feq (q0 p) (q0 q) = true /\ feq (q1 p) (q1 q) = true /\ feq (q2 p) (q2 q) = true /\ feq (q3 p) (q3 q) = true.

Lemma is_feq : forall x y, fin y -> is x (val y) -> feq x y = true.
Proof. intros x y F [G V]. rewrite (feq_R x y G F), V. apply Req_bool_true. reflexivity. Qed.

Lemma identity_neutral : forall {E : Env} q, fin_quat q ->
  feq_quat (@q_mul _ arith_f32 (@q_identity _ arith_f32) q) q /\
  feq_quat (@q_mul _ arith_f32 q (@q_identity _ arith_f32)) q.
Proof.
  intros E q (F0 & F1 & F2 & F3).
  unfold q_mul, q_identity, feq_quat. cbn [q0 q1 q2 q3 a0 a1 aadd asub amul arith_f32].
  repeat split; apply is_feq; trivial;
    repeat first [ apply is_mul1; assumption | apply is_mulz; assumption
                 | apply is_addz; [|apply is_mulz; assumption] | apply is_subz; [|apply is_mulz; assumption]
                 | apply is_zadd; [apply is_mul1; assumption|] | apply is_addz | apply is_subz ].
Qed.

(** ** conjugate *)

Lemma fmul_neg_neg_same : forall {E : Env} x, same (fmul (fneg x) (fneg x)) (fmul x x).
Proof.
  intros E x. destruct (is_nan x) eqn:N.
  - right. split; apply fmul_nan; left; [apply fneg_nan|]; exact N.
  - left. apply fmul_neg_neg. exact N.
Qed.

Lemma conj_conj : forall {E : Env} q, @q_conj _ arith_f32 (@q_conj _ arith_f32 q) = q.
Proof.
  intros E [a b c d]. unfold q_conj. cbn [q0 q1 q2 q3 aneg arith_f32]. rewrite !fneg_involutive. reflexivity.
Qed.

Lemma norm_conj : forall {E : Env} q, same (@q_norm _ arith_f32 (@q_conj _ arith_f32 q)) (@q_norm _ arith_f32 q).
Proof.
  intros E q. unfold q_norm, q_conj. cbn [q0 q1 q2 q3 aadd amul aneg arith_f32].
  repeat apply fadd_same; try apply fmul_neg_neg_same. apply same_refl.
Qed.

Lemma fmul_fneg_r : forall {E : Env} x y, same (fmul x (fneg y)) (fneg (fmul x y)).
Proof.
  intros E x y. destruct (is_nan (fmul x y)) eqn:N.
  - right. split; [|apply fneg_nan; exact N].
    destruct (is_nan x) eqn:Nx; [apply fmul_nan; left; exact Nx|].
    destruct (is_nan y) eqn:Ny; [apply fmul_nan; right; apply fneg_nan; exact Ny|].
    destruct x as [a|a|a p H|a m e H]; try discriminate; destruct y as [b|b|b p' H'|b m' e' H']; try discriminate;
      try (refine (build_nan_nan _)).
    exfalso. pose proof (Bmult_correct 24 128 prec24 emax128 nan_mul mode_NE (B754_finite a m e H) (B754_finite b m' e' H')) as C.
    fold (fmul (B754_finite a m e H) (B754_finite b m' e' H')) in C. destruct (Rlt_bool _ _).
    + destruct C as (_ & C & _). cbn in C. pose proof (fin_not_nan _ C). congruence.
    + destruct (fmul (B754_finite a m e H) (B754_finite b m' e' H')); try discriminate.
  - left. assert (Nx : is_nan x = false).
    { destruct (is_nan x) eqn:K; trivial. assert (nan (fmul x y)) by (apply fmul_nan; left; exact K). unfold nan in *. congruence. }
    assert (Ny : is_nan y = false).
    { destruct (is_nan y) eqn:K; trivial. assert (nan (fmul x y)) by (apply fmul_nan; right; exact K). unfold nan in *. congruence. }
    destruct (is_finite x) eqn:Fx; destruct (is_finite y) eqn:Fy.
    + pose proof (Bmult_correct 24 128 prec24 emax128 nan_mul mode_NE x y) as C1.
      pose proof (Bmult_correct 24 128 prec24 emax128 nan_mul mode_NE x (fneg y)) as C2.
      fold (fmul x y) in C1. fold (fmul x (fneg y)) in C2.
      fold (val x) (val y) in C1. fold (val x) (val (fneg y)) in C2. rewrite fneg_val in C2.
      replace (val x * - val y)%R with (- (val x * val y))%R in C2 by ring.
      rewrite round_NE_opp in C2 || (unfold round_mode in *; rewrite round_NE_opp in C2). rewrite Rabs_Ropp in C2.
      assert (SN : forall z, is_nan z = false -> Bsign 24 128 (fneg z) = negb (Bsign 24 128 z)).
      { intros z Hz. destruct z; try discriminate; reflexivity. }
      destruct (Rlt_bool _ _).
      * destruct C1 as (V1 & F1 & S1). destruct C2 as (V2 & F2 & S2).
        unfold is_finite in Fx, Fy. rewrite Fx, Fy in F1. assert (Fn : Binary.is_finite 24 128 (fneg y) = true) by (apply fneg_fin; exact Fy).
        rewrite Fx, Fn in F2. cbn in F1, F2.
        apply fin_dec_eq; [exact F2|apply fneg_fin; exact F1| |].
        -- fold (val (fmul x y)) in V1. fold (val (fmul x (fneg y))) in V2. rewrite V2, fneg_val, V1. reflexivity.
        -- unfold sign_bit. rewrite S2 by (apply fin_not_nan; exact F2).
           rewrite (SN (fmul x y)) by exact N. rewrite S1 by exact N. rewrite (SN y) by exact Ny.
           destruct (Bsign 24 128 x), (Bsign 24 128 y); reflexivity.
      * apply B2FF_inj. rewrite C2. rewrite SN by exact Ny.
        destruct (fmul x y) as [s|s|s p H|s m e H]; try discriminate. simpl in C1. inversion C1. simpl.
        f_equal. destruct (Bsign 24 128 x), (Bsign 24 128 y); reflexivity.
    + destruct y as [b|b|b p' H'|b m' e' H']; try discriminate. destruct x as [a|a|a p H|a m e H]; try discriminate;
        destruct a, b; reflexivity.
    + destruct x as [b|b|b p' H'|b m' e' H']; try discriminate. destruct y as [a|a|a p H|a m e H]; try discriminate;
        destruct a, b; reflexivity.
    + destruct x as [a|a|a p H|a m e H]; try discriminate. destruct y as [b|b|b p' H'|b m' e' H']; try discriminate.
      destruct a, b; reflexivity.
Qed.

Lemma fsub_fneg : forall {E : Env} x y, same (fsub x (fneg y)) (fadd x y).
Proof.
  intros E x y. destruct (is_nan x) eqn:Nx; [right; split; [apply fsub_nan|apply fadd_nan]; left; exact Nx|].
  destruct (is_nan y) eqn:Ny; [right; split; [apply fsub_nan; right; apply fneg_nan|apply fadd_nan; right]; exact Ny|].
  destruct (is_finite x) eqn:Fx; destruct (is_finite y) eqn:Fy.
  - left. assert (Fn : fin (fneg y)) by (apply fneg_fin; exact Fy).
    pose proof (Bplus_correct 24 128 prec24 emax128 nan_add mode_NE x y Fx Fy) as C1.
    pose proof (Bminus_correct 24 128 prec24 emax128 nan_sub mode_NE x (fneg y) Fx Fn) as C2.
    fold (fadd x y) in C1. fold (fsub x (fneg y)) in C2. fold (val x) (val y) in C1. fold (val x) (val (fneg y)) in C2.
    rewrite fneg_val in C2. replace (val x - - val y)%R with (val x + val y)%R in C2 by ring.
    assert (SN : Bsign 24 128 (fneg y) = negb (Bsign 24 128 y)) by (destruct y; try discriminate; reflexivity).
    rewrite SN, negb_involutive in C2. destruct (Rlt_bool _ _).
    + destruct C1 as (V1 & F1 & S1). destruct C2 as (V2 & F2 & S2).
      apply fin_dec_eq; [exact F2|exact F1| |].
      * unfold val. congruence.
      * unfold sign_bit. congruence.
    + destruct C1 as [C1 _]. destruct C2 as [C2 _]. apply B2FF_inj. congruence.
  - left. destruct y as [b|b|b p' H'|b m' e' H']; try discriminate. destruct x as [a|a|a p H|a m e H]; try discriminate;
      destruct a, b; reflexivity.
  - left. destruct x as [b|b|b p' H'|b m' e' H']; try discriminate. destruct y as [a|a|a p H|a m e H]; try discriminate;
      destruct a, b; reflexivity.
  - destruct x as [a|a|a p H|a m e H]; try discriminate. destruct y as [b|b|b p' H'|b m' e' H']; try discriminate.
    destruct a, b; try (left; reflexivity); right; split; refine (build_nan_nan _).
Qed.

Lemma mul_conj_real : forall {E : Env} q, same (q0 (@q_mul _ arith_f32 q (@q_conj _ arith_f32 q))) (@q_norm _ arith_f32 q).
Proof.
  intros E q. unfold q_mul, q_norm, q_conj. cbn [q0 q1 q2 q3 aadd asub amul aneg arith_f32].
  assert (G : forall s t x, same s t -> same (fsub s (fmul x (fneg x))) (fadd t (fmul x x))).
  { intros s t x H. eapply same_trans; [apply fsub_same; [exact H|apply fmul_fneg_r]|]. apply fsub_fneg. }
  repeat apply G. apply same_refl.
Qed.

(** ** norm, inverse and normalization *)

Definition q_list (q : Quat f32) : list f32 := [q0 q; q1 q; q2 q; q3 q].

Lemma quat_norm_approx : forall {E : Env} q, Forall sq_ok (q_list q) -> (rsumsq (q_list q) <= bpow radix2 126)%R ->
  approx 4 (@q_norm _ arith_f32 q) (rsumsq (q_list q)).
Proof.
  intros E [a b c d] F L. unfold q_list in *. cbn [q0 q1 q2 q3] in *.
  inversion F as [|? ? Fa F1]; subst. inversion F1 as [|? ? Fb F2]; subst. inversion F2 as [|? ? Fc F3]; subst.
  inversion F3 as [|? ? Fd _]; subst. clear F F1 F2 F3.
  unfold q_norm. cbn [q0 q1 q2 q3 aadd amul arith_f32]. unfold rsumsq in *. cbn [fold_right] in *.
  pose proof (Rle_0_sqr (val a)) as Q1. pose proof (Rle_0_sqr (val b)) as Q2.
  pose proof (Rle_0_sqr (val c)) as Q3. pose proof (Rle_0_sqr (val d)) as Q4. unfold Rsqr in *.
  replace (val a * val a + (val b * val b + (val c * val c + (val d * val d + 0))))%R
    with (val a * val a + val b * val b + val c * val c + val d * val d)%R by ring.
  apply approx_add; [lia| |apply (approx_weaken 1); [lia|apply sq_approx; assumption]|lra].
  apply approx_add; [lia| |apply (approx_weaken 1); [lia|apply sq_approx; assumption]|lra].
  apply approx_add; [lia|apply sq_approx; assumption|apply sq_approx; assumption|lra].
Qed.

Lemma approx_normal : forall k s T, (k <= 8)%nat -> approx k s T -> (0 < T)%R -> normal_pos s /\
  ((1 - / 2000000) * T <= val s <= (1 + / 2000000) * T)%R.
Proof.
  intros k s T K (F & Zs & T0 & B) P. destruct (u24_pow k K) as [P1 P2]. destruct (u24_mono k 8 ltac:(lia)) as [M1 M2].
  assert (Q1 : ((1 + u24) ^ 8 <= 1 + / 2000000)%R) by (unfold u24; simpl; lra).
  assert (Q2 : (1 - / 2000000 <= (1 - u24) ^ 8)%R) by (unfold u24; simpl; lra).
  assert (((1 + u24) ^ k * T <= (1 + / 2000000) * T)%R) by (apply Rmult_le_compat_r; lra).
  assert (((1 - / 2000000) * T <= (1 - u24) ^ k * T)%R) by (apply Rmult_le_compat_r; lra).
  split; [|lra]. split; [assumption|]. destruct Zs as [Zs|Zs]; [exfalso; rewrite Zs in *; lra|exact Zs].
Qed.

Lemma quat_magnitude_acc : forall {E : Env} q, Forall sq_ok (q_list q) -> (0 < rsumsq (q_list q) <= bpow radix2 126)%R ->
  exists z, Q_magnitude q = Ok z /\ normal_pos z /\
    ((1 - bpow radix2 (-20)) * sqrt (rsumsq (q_list q)) <= val z <= 1.0607 * sqrt (rsumsq (q_list q)))%R.
Proof.
  intros E q F L. apply (approx_sqrt 4); [lia| |lra]. apply quat_norm_approx; [exact F|lra].
Qed.

Lemma feq_zero_normal : forall {E : Env} s, normal_pos s -> feq s F32_ZERO = false.
Proof.
  intros E s N. pose proof (normal_pos_gt0 s N). destruct N as [F _]. rewrite feq_R; [|exact F|reflexivity].
  apply Req_bool_false. change (val F32_ZERO) with 0%R. lra.
Qed.

Lemma scale_list : forall {E : Env} l k, Forall fin l -> (length l <= 4)%nat -> fin k ->
  (Rabs (val k * sqrt (rsumsq l) - 1) <= 0.0348)%R ->
  Forall fin (map (fun a => fmul a k) l) /\
  (0.965 <= sqrt (rsumsq (map (fun a => fmul a k) l)) <= 1.035)%R.
Proof.
  intros E l k F K Fk B. set (h := sqrt (rsumsq l)) in *.
  assert (H0 : (0 <= h)%R) by apply sqrt_pos.
  assert (HH : (h * h = rsumsq l)%R) by (apply sqrt_sqrt; apply rsumsq_pos).
  apply Rabs_le_inv in B.
  assert (K0 : (0 < val k)%R).
  { destruct (Rle_or_lt (val k) 0) as [N|N]; [|exact N]. assert (0 <= - val k * h)%R by (apply Rmult_le_pos; lra). lra. }
  assert (Q : forall a, In a l -> exists e, fin (fmul a k) /\ val (fmul a k) = (val a * val k + e)%R /\
              (Rabs e <= / 16777216)%R /\ (Rabs (val a * val k) <= 1.0348)%R).
  { intros a I. pose proof (sq_le_sum l a I) as S. rewrite <- HH in S.
    assert (A : (Rabs (val a) <= h)%R).
    { apply Rsqr_incr_0_var; [|lra]. unfold Rsqr. rewrite <- Rabs_mult, Rabs_pos_eq by apply Rle_0_sqr. assumption. }
    assert (D : (Rabs (val a * val k) <= 1.0348)%R).
    { rewrite Rabs_mult, (Rabs_pos_eq (val k)) by lra.
      apply Rle_trans with (h * val k)%R; [apply Rmult_le_compat_r; lra|lra]. }
    destruct (fmul_e 1 a k) as (e & Fe & Ve & Be); trivial.
    - rewrite Forall_forall in F. apply F. assumption.
    - lia.
    - change (bpow radix2 1) with 2%R. lra.
    - exists e. split; [assumption|]. split; [assumption|]. split; [|assumption].
      change (1 - 25) with (-24) in Be. rewrite u24_eq in Be. exact Be. }
  assert (S : forall m, (forall a, In a m -> In a l) ->
    Forall fin (map (fun a => fmul a k) m) /\
    (Rabs (rsumsq (map (fun a => fmul a k) m) - rsumsq m * (val k * val k)) <= INR (length m) * 2e-7)%R).
  { intros m. induction m as [|a m IH]; intros I.
    - split; [constructor|]. simpl. rewrite Rmult_0_l, Rminus_0_r, Rabs_R0. lra.
    - destruct IH as [I1 I2]; [intros b J; apply I; right; assumption|].
      destruct (Q a (I a (or_introl eq_refl))) as (e & Fe & Ve & Be & Bt).
      split; [constructor; assumption|]. rewrite map_cons. cbn [rsumsq fold_right] in *.
      fold (rsumsq (map (fun a => fmul a k) m)). fold (rsumsq m). change (length (a :: m)) with (S (length m)).
      rewrite S_INR, Ve. set (t := (val a * val k)%R) in *.
      replace ((t + e) * (t + e) + rsumsq (map (fun a0 => fmul a0 k) m) - (val a * val a + rsumsq m) * (val k * val k))%R
        with ((2 * t * e + e * e) + (rsumsq (map (fun a0 => fmul a0 k) m) - rsumsq m * (val k * val k)))%R.
      2:{ unfold t. ring. }
      eapply Rle_trans; [apply Rabs_triang|].
      assert (Rabs (2 * t * e + e * e) <= 2e-7)%R; [|lra].
      eapply Rle_trans; [apply Rabs_triang|]. rewrite !Rabs_mult, (Rabs_pos_eq 2) by lra.
      pose proof (Rabs_pos t). pose proof (Rabs_pos e).
      assert (Rabs t * Rabs e <= 1.0348 * / 16777216)%R by (apply Rmult_le_compat; lra).
      assert (Rabs e * Rabs e <= / 16777216 * / 16777216)%R by (apply Rmult_le_compat; lra). lra. }
  destruct (S l (fun a H => H)) as [S1 S2]. split; [assumption|].
  assert (L4 : (INR (length l) <= 4)%R) by (replace 4%R with (INR 4) by (simpl; lra); apply le_INR; assumption).
  assert (S3 : (Rabs (rsumsq (map (fun a => fmul a k) l) - rsumsq l * (val k * val k)) <= 8e-7)%R) by lra.
  apply Rabs_le_inv in S3.
  assert (T1 : (0.9652 * 0.9652 <= rsumsq l * (val k * val k) <= 1.0348 * 1.0348)%R).
  { rewrite <- HH. replace (h * h * (val k * val k))%R with ((val k * h) * (val k * h))%R by ring.
    split; apply Rmult_le_compat; lra. }
  split.
  - rewrite <- (sqrt_square 0.965) by lra. apply sqrt_le_1_alt. lra.
  - rewrite <- (sqrt_square 1.035) by lra. apply sqrt_le_1_alt. lra.
Qed.

Lemma scale_q_list : forall {E : Env} q k, q_list (@q_scale _ arith_f32 q k) = map (fun a => fmul a k) (q_list q).
Proof. reflexivity. Qed.

Lemma invsqrt_norm : forall {E : Env} q, Forall sq_ok (q_list q) -> (0 < rsumsq (q_list q) <= bpow radix2 126)%R ->
  exists n, F32_invsqrt (@q_norm _ arith_f32 q) = Ok n /\ normal_pos n /\
    Forall fin (q_list (@q_scale _ arith_f32 q n)) /\
    (0.965 <= sqrt (rsumsq (q_list (@q_scale _ arith_f32 q n))) <= 1.035)%R.
Proof.
  intros E q F L. pose proof (quat_norm_approx q F ltac:(lra)) as A.
  destruct (approx_normal 4 _ _ ltac:(lia) A ltac:(lra)) as [N B]. set (s := @q_norm _ arith_f32 q) in *.
  destruct (invsqrt_accuracy s N) as (n & I & Nn & H). exists n. split; [exact I|]. split; [exact Nn|].
  rewrite scale_q_list. apply scale_list; [apply sq_ok_fin; exact F|simpl; lia|apply Nn|].
  set (T := rsumsq (q_list q)) in *. set (h := sqrt T) in *. apply Rabs_le_inv in H.
  assert (h0 : (0 < h)%R) by (apply sqrt_lt_R0; lra).
  pose proof (normal_pos_gt0 n Nn) as n0.
  assert (S1 : (sqrt (val s) <= (1 + / 1000000) * h)%R).
  { unfold h. rewrite <- (sqrt_square (1 + / 1000000)) by lra. rewrite <- sqrt_mult_alt by lra. apply sqrt_le_1_alt.
    apply Rle_trans with ((1 + / 2000000) * T)%R; [lra|]. apply Rmult_le_compat_r; lra. }
  assert (S2 : ((1 - / 1000000) * h <= sqrt (val s))%R).
  { unfold h. rewrite <- (sqrt_square (1 - / 1000000)) by lra. rewrite <- sqrt_mult_alt by lra. apply sqrt_le_1_alt.
    apply Rle_trans with ((1 - / 2000000) * T)%R; [|lra]. apply Rmult_le_compat_r; lra. }
  assert (P1 : (val n * sqrt (val s) <= val n * ((1 + / 1000000) * h))%R) by (apply Rmult_le_compat_l; lra).
  assert (P2 : (val n * ((1 - / 1000000) * h) <= val n * sqrt (val s))%R) by (apply Rmult_le_compat_l; lra).
  apply Rabs_le. lra.
Qed.

Lemma normalize_accuracy : forall {E : Env} q, Forall sq_ok (q_list q) -> (0 < rsumsq (q_list q) <= bpow radix2 126)%R ->
  exists r, Q_normalize q = Ok r /\ Forall fin (q_list r) /\ (0.965 <= sqrt (rsumsq (q_list r)) <= 1.035)%R.
Proof.
  intros E q F L. destruct (invsqrt_norm q F L) as (n & I & _ & G & H).
  pose proof (quat_norm_approx q F ltac:(lra)) as A.
  destruct (approx_normal 4 _ _ ltac:(lia) A ltac:(lra)) as [N _].
  unfold Q_normalize. rewrite (feq_zero_normal _ N). rewrite I. cbn [bind]. eexists. split; [reflexivity|]. split; assumption.
Qed.

Lemma inv_panic : forall {E : Env} q, Q_inv q = Panic <-> feq (@q_norm _ arith_f32 q) F32_ZERO = true.
Proof. intros E q. unfold Q_inv. destruct (feq _ _); split; intros H; congruence. Qed.

Lemma inv_accuracy_q : forall {E : Env} q, Forall sq_ok (q_list q) -> (0 < rsumsq (q_list q) <= bpow radix2 125)%R ->
  let N := rsumsq (q_list q) in
  exists r, Q_inv q = Ok r /\
    near (0.1251 * (Rabs (val (q0 q)) / N) + bpow radix2 (-150)) (q0 r) (val (q0 q) / N) /\
    near (0.1251 * (Rabs (val (q1 q)) / N) + bpow radix2 (-150)) (q1 r) (- val (q1 q) / N) /\
    near (0.1251 * (Rabs (val (q2 q)) / N) + bpow radix2 (-150)) (q2 r) (- val (q2 q) / N) /\
    near (0.1251 * (Rabs (val (q3 q)) / N) + bpow radix2 (-150)) (q3 r) (- val (q3 q) / N).
Proof.
  intros E q F L N. assert (D : (bpow radix2 126 = 2 * bpow radix2 125)%R) by (change 126 with (1 + 125); rewrite bpow_plus; reflexivity).
  pose proof (quat_norm_approx q F ltac:(lra)) as A.
  destruct (approx_normal 4 _ _ ltac:(lia) A ltac:(lra)) as [Ns B]. set (s := @q_norm _ arith_f32 q) in *.
  fold N in A, B, L.
  destruct (inv_accuracy s Ns) as [Nk Hk]; [lra|]. set (k := F32_inv s) in *.
  unfold Q_inv. fold s. rewrite (feq_zero_normal s Ns). fold k. eexists. split; [reflexivity|].
  pose proof (normal_pos_gt0 k Nk) as k0. pose proof (normal_pos_gt0 s Ns) as s0.
  assert (kN : (1 - / 1000000 <= val k * N <= 1.12501)%R).
  { assert (val k * ((1 - / 2000000) * N) <= val k * val s)%R by (apply Rmult_le_compat_l; lra).
    assert (val k * val s <= val k * ((1 + / 2000000) * N))%R by (apply Rmult_le_compat_l; lra). lra. }
  assert (kV : val k = (val k * N / N)%R) by (field; lra).
  assert (iN : (0 < / N)%R) by (apply Rinv_0_lt_compat; lra).
  (* one component *)
  assert (G : forall x, In x (q_list q) -> near (0.1251 * (Rabs (val x) / N) + bpow radix2 (-150)) (fmul x k) (val x / N)).
  { intros x I. pose proof (sq_le_sum _ x I) as XN. fold N in XN.
    rewrite Forall_forall in F. destruct (F x I) as [Fx Hx].
    assert (T : (val x * val k = val x / N * (val k * N))%R) by (field; lra).
    assert (Z : (0 <= Rabs (val x) / N)%R) by (apply Rmult_le_pos; [apply Rabs_pos|lra]).
    assert (AQ : Rabs (val x / N) = (Rabs (val x) / N)%R).
    { unfold Rdiv. rewrite Rabs_mult, Rabs_inv, (Rabs_pos_eq N) by lra. reflexivity. }
    assert (M : (Rabs (val x * val k) <= 1.12501 * (Rabs (val x) / N))%R).
    { rewrite T, Rabs_mult, AQ, (Rabs_pos_eq (val k * N)) by lra.
      rewrite (Rmult_comm 1.12501). apply Rmult_le_compat_l; lra. }
    assert (X : (Rabs (val x) / N <= bpow radix2 120)%R).
    { destruct Hx as [Hx|Hx].
      - rewrite Hx, Rabs_R0. unfold Rdiv. rewrite Rmult_0_l. apply bpow_ge_0.
      - apply Rle_trans with (bpow radix2 63); [|apply bpow_le; lia].
        assert (X0 : (bpow radix2 (-63) <= Rabs (val x))%R).
        { apply Rsqr_incr_0_var; [|apply Rabs_pos]. unfold Rsqr.
          rewrite <- bpow_plus, <- Rabs_mult, (Rabs_pos_eq (val x * val x)); [|apply Rle_0_sqr].
          change (-63 + -63) with (-126). lra. }
        apply Rmult_le_reg_r with N; [lra|]. unfold Rdiv. rewrite Rmult_assoc, Rinv_l, Rmult_1_r by lra.
        apply Rle_trans with (bpow radix2 63 * (val x * val x))%R; [|apply Rmult_le_compat_l; [apply bpow_ge_0|exact XN]].
        rewrite <- (Rabs_pos_eq (val x * val x)) by apply Rle_0_sqr. rewrite Rabs_mult, <- Rmult_assoc.
        rewrite <- (Rmult_1_l (Rabs (val x))) at 1. apply Rmult_le_compat_r; [apply Rabs_pos|].
        apply Rle_trans with (bpow radix2 63 * bpow radix2 (-63))%R.
        + rewrite <- bpow_plus. simpl. lra.
        + apply Rmult_le_compat_l; [apply bpow_ge_0|exact X0]. }
    destruct (fmul_R x k Fx (proj1 Nk)) as [P1 P2].
    { apply (small_lt_128 127); [lia|]. rewrite bp127. pose proof (bpow_gt_0 radix2 120). lra. }
    split; [exact P1|]. rewrite P2.
    pose proof (rnd_err_mixed (val x * val k)) as R. rewrite u24_eq in R.
    replace (rnd (val x * val k) - val x / N)%R with ((rnd (val x * val k) - val x * val k) + (val x / N * (val k * N - 1)))%R
      by (rewrite T; ring).
    eapply Rle_trans; [apply Rabs_triang|]. rewrite Rabs_mult, AQ.
    assert (Rabs (val k * N - 1) <= 0.12501)%R by (apply Rabs_le; lra).
    assert (Rabs (val x) / N * Rabs (val k * N - 1) <= Rabs (val x) / N * 0.12501)%R by (apply Rmult_le_compat_l; lra).
    assert (u24 * Rabs (val x * val k) <= u24 * (1.12501 * (Rabs (val x) / N)))%R by (apply Rmult_le_compat_l; [unfold u24; lra|lra]).
    unfold u24 in *. lra. }
  assert (G' : forall x, In x (q_list q) ->
    near (0.1251 * (Rabs (val x) / N) + bpow radix2 (-150)) (fmul (fneg x) k) (- val x / N)).
  { intros x I. destruct (G x I) as [Fx Hx].
    assert (S1 : same (fmul (fneg x) k) (fneg (fmul x k))).
    { eapply same_trans; [apply fmul_comm|]. eapply same_trans; [apply fmul_fneg_r|].
      destruct (fmul_comm k x) as [->|[_ C]]; [apply same_refl|]. unfold nan in C. rewrite (fin_not_nan _ Fx) in C. discriminate. }
    destruct S1 as [->|[_ C]].
    - split; [apply fneg_fin; exact Fx|]. rewrite fneg_val.
      replace (- val (fmul x k) - - val x / N)%R with (- (val (fmul x k) - val x / N))%R by (field; lra).
      rewrite Rabs_Ropp. exact Hx.
    - unfold nan in C. rewrite (fin_not_nan _ (fneg_fin _ Fx)) in C. discriminate. }
  unfold q_mul_scalar, q_scale, q_conj. cbn [q0 q1 q2 q3 amul aneg arith_f32].
  split; [apply G; left; reflexivity|]. split; [apply G'; right; left; reflexivity|].
  split; [apply G'; right; right; left; reflexivity|apply G'; right; right; right; left; reflexivity].
Qed.
