(** * Rounding errors in additive form *)

From Coq Require Import ZArith Reals Bool List Lia Lra Psatz.
From Flocq Require Import Core IEEE754.BinarySingleNaN IEEE754.Binary IEEE754.Bits.
From Verif Require Import Base Spec Float F32Lemmas BitLemmas P_Trunc P_Floor Literals.
Open Scope Z_scope.

Lemma ulpk : forall k, (0 < bpow radix2 k)%R.
Proof. intros. apply bpow_gt_0. Qed.

Lemma fadd_e : forall {E : Env} k x y, fin x -> fin y -> -125 <= k <= 127 ->
  (Rabs (val x + val y) <= bpow radix2 k)%R ->
  exists e, fin (fadd x y) /\ val (fadd x y) = (val x + val y + e)%R /\ (Rabs e <= bpow radix2 (k - 25))%R.
Proof.
  intros E k x y Hx Hy Hk H. destruct (fadd_k k x y Hx Hy Hk H) as (A & B & C & D).
  exists (val (fadd x y) - (val x + val y))%R. split; [assumption|]. split; [ring|assumption].
Qed.
Lemma fsub_e : forall {E : Env} k x y, fin x -> fin y -> -125 <= k <= 127 ->
  (Rabs (val x - val y) <= bpow radix2 k)%R ->
  exists e, fin (fsub x y) /\ val (fsub x y) = (val x - val y + e)%R /\ (Rabs e <= bpow radix2 (k - 25))%R.
Proof.
  intros E k x y Hx Hy Hk H. destruct (fsub_k k x y Hx Hy Hk H) as (A & B & C & D).
  exists (val (fsub x y) - (val x - val y))%R. split; [assumption|]. split; [ring|assumption].
Qed.
Lemma fmul_e : forall {E : Env} k x y, fin x -> fin y -> -125 <= k <= 127 ->
  (Rabs (val x * val y) <= bpow radix2 k)%R ->
  exists e, fin (fmul x y) /\ val (fmul x y) = (val x * val y + e)%R /\ (Rabs e <= bpow radix2 (k - 25))%R.
Proof.
  intros E k x y Hx Hy Hk H. destruct (fmul_k k x y Hx Hy Hk H) as (A & B & C & D).
  exists (val (fmul x y) - (val x * val y))%R. split; [assumption|]. split; [ring|assumption].
Qed.
Lemma fdiv_e : forall {E : Env} k x y, fin x -> fin y -> val y <> 0%R -> -125 <= k <= 127 ->
  (Rabs (val x / val y) <= bpow radix2 k)%R ->
  exists e, fin (fdiv x y) /\ val (fdiv x y) = (val x / val y + e)%R /\ (Rabs e <= bpow radix2 (k - 25))%R.
Proof.
  intros E k x y Hx Hy Hz Hk H. destruct (fdiv_k k x y Hx Hy Hz Hk H) as (A & B & C & D).
  exists (val (fdiv x y) - (val x / val y))%R. split; [assumption|]. split; [ring|assumption].
Qed.

(** Relative form, for normal results. *)
Lemma rnd_rel_d : forall r, (bpow radix2 (-126) <= Rabs r)%R ->
  exists d, rnd r = (r * (1 + d))%R /\ (Rabs d <= bpow radix2 (-24))%R.
Proof.
  intros r H. pose proof (rnd_rel r H) as R. pose proof (bpow_gt_0 radix2 (-126)).
  assert (r <> 0)%R by (intros C; rewrite C, Rabs_R0 in H; lra).
  exists ((rnd r - r) / r)%R. split; [field; assumption|].
  unfold Rdiv. rewrite Rabs_mult, Rabs_inv.
  apply Rmult_le_reg_r with (Rabs r); [apply Rabs_pos_lt; assumption|].
  rewrite Rmult_assoc, Rinv_l, Rmult_1_r by (apply Rabs_no_R0; assumption). assumption.
Qed.

(** Magnitude and rounding: x below 2^k rounds to at most 2^k. *)
Lemma fmul_one : forall {E : Env} x, fin x -> fin (fmul x F32_ONE) /\ val (fmul x F32_ONE) = val x.
Proof.
  intros E x Hx. destruct one_val as [O1 O2].
  assert (R : rnd (val x * val F32_ONE) = val x).
  { rewrite O2, Rmult_1_r. apply rnd_fmt, fmt_val. }
  destruct (fmul_R x F32_ONE Hx O1) as [A B].
  - rewrite R. apply (abs_B2R_lt_emax 24 128 x).
  - split; [assumption|]. rewrite B. exact R.
Qed.
Lemma fmul_mone : forall {E : Env} x, fin x -> fin (fmul x (fneg F32_ONE)) /\ val (fmul x (fneg F32_ONE)) = (- val x)%R.
Proof.
  intros E x Hx. destruct one_val as [O1 O2].
  assert (R : rnd (val x * val (fneg F32_ONE)) = (- val x)%R).
  { rewrite fneg_val, O2. replace (val x * - (1))%R with (- val x)%R by ring. apply rnd_fmt, fmt_opp, fmt_val. }
  destruct (fmul_R x (fneg F32_ONE) Hx (fneg_fin _ O1)) as [A B].
  - rewrite R, Rabs_Ropp. apply (abs_B2R_lt_emax 24 128 x).
  - split; [assumption|]. rewrite B. exact R.
Qed.

(** One Horner step c + w*s. *)
Lemma horner_step : forall {E : Env} k j c w s S eps b,
  fin c -> fin w -> fin s -> (Rabs (val s - S) <= eps)%R -> (Rabs (val w) <= b)%R ->
  -125 <= k <= 127 -> -125 <= j <= 127 ->
  (Rabs (val w * S) + b * eps <= bpow radix2 k)%R ->
  (Rabs (val c + val w * S) + b * eps + bpow radix2 (k - 25) <= bpow radix2 j)%R ->
  let z := fadd c (fmul w s) in
  fin z /\ (Rabs (val z - (val c + val w * S)) <= b * eps + bpow radix2 (k - 25) + bpow radix2 (j - 25))%R.
Proof.
  intros E k j c w s S eps b Fc Fw Fs He Hb Hk Hj H1 H2 z.
  assert (D : (Rabs (val w * val s - val w * S) <= b * eps)%R).
  { replace (val w * val s - val w * S)%R with (val w * (val s - S))%R by ring. rewrite Rabs_mult.
    apply Rmult_le_compat; try apply Rabs_pos; assumption. }
  apply Rabs_le_inv in D.
  destruct (fmul_e k w s Fw Fs Hk) as (e1 & F1 & V1 & E1).
  { apply Rabs_le.
    pose proof (Rle_abs (val w * S)). pose proof (Rle_abs (- (val w * S))). rewrite Rabs_Ropp in *. lra. }
  apply Rabs_le_inv in E1.
  destruct (fadd_e j c (fmul w s) Fc F1 Hj) as (e2 & F2 & V2 & E2).
  { rewrite V1. apply Rabs_le.
    pose proof (Rle_abs (val c + val w * S)). pose proof (Rle_abs (- (val c + val w * S))). rewrite Rabs_Ropp in *. lra. }
  apply Rabs_le_inv in E2.
  split; [assumption|]. fold z in V2. rewrite V2, V1. apply Rabs_le. lra.
Qed.
