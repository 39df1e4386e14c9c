(** * Proofs: sums of squares in floating point *)

From Coq Require Import ZArith Reals Bool List Lia Lra Psatz.
From Flocq Require Import Core IEEE754.BinarySingleNaN IEEE754.Binary IEEE754.Bits.
From Verif Require Import Base Spec Float F32Lemmas BitLemmas P_Trunc P_Floor Literals ErrLemmas P_RoundEdge
  NanLemmas P_Euclid P_Roots P_InvSqrt P_Recip.
Import ListNotations.
Open Scope Z_scope.

Definition u24 : R := (/ 16777216)%R.
Lemma u24_eq : bpow radix2 (-24) = u24.
Proof. unfold u24. bpow_lit. lra. Qed.

(** [s] approximates [T] with [k] roundings and is zero or normal. *)
Definition approx (k : nat) (s : f32) (T : R) : Prop :=
  fin s /\ (val s = 0 \/ bpow radix2 (-126) <= val s)%R /\ (0 <= T)%R /\
  ((1 - u24) ^ k * T <= val s <= (1 + u24) ^ k * T)%R.

Lemma sq_approx : forall {E : Env} a, sq_ok a -> approx 1 (fmul a a) (val a * val a).
Proof.
  intros E a [F H]. pose proof (bpow_gt_0 radix2 (-126)) as B0. pose proof (bpow_gt_0 radix2 125) as B1.
  destruct (fmul_R a a F F) as [A B].
  { apply (small_lt_128 125); [lia|]. destruct H as [->|H]; [rewrite Rmult_0_l, Rabs_R0|rewrite Rabs_pos_eq]; lra. }
  split; [assumption|]. rewrite B. destruct H as [H|H].
  - rewrite H, Rmult_0_l. rewrite rnd_fmt by apply generic_format_0. split; [left; reflexivity|]. split; lra.
  - pose proof (rnd_rel (val a * val a)) as R. rewrite Rabs_pos_eq, u24_eq in R by lra.
    specialize (R ltac:(lra)). apply Rabs_le_inv in R. split.
    + right. rewrite <- (rnd_fmt _ (fmt_bpow (-126) ltac:(lia))). apply rnd_le. lra.
    + simpl. rewrite !Rmult_1_r. split; lra.
Qed.

Lemma u24_pow : forall k, (k <= 8)%nat -> (1 <= (1 + u24) ^ k <= 1.1)%R /\ (0.9 <= (1 - u24) ^ k <= 1)%R.
Proof.
  intros k K. unfold u24. do 9 (destruct k as [|k]; [simpl; lra|]). lia.
Qed.
Lemma u24_mono : forall k l, (k <= l <= 8)%nat ->
  ((1 + u24) ^ k <= (1 + u24) ^ l)%R /\ ((1 - u24) ^ l <= (1 - u24) ^ k)%R.
Proof.
  intros k l K. assert (U : (0 < u24 < 1)%R) by (unfold u24; lra). split.
  - apply Rle_pow; [lra|lia].
  - replace l with (k + (l - k))%nat by lia. rewrite pow_add.
    rewrite <- (Rmult_1_r ((1 - u24) ^ k)) at 2. apply Rmult_le_compat_l; [apply pow_le; lra|].
    clear K. induction (l - k)%nat as [|n IH]; simpl; [lra|].
    assert (0 <= (1 - u24) ^ n)%R by (apply pow_le; lra). nra.
Qed.

Lemma approx_weaken : forall k l s T, (k <= l <= 8)%nat -> approx k s T -> approx l s T.
Proof.
  intros k l s T K (A & B & C & D). destruct (u24_mono k l K) as [M1 M2].
  repeat split; trivial; nra.
Qed.

Lemma approx_zero : forall k s, (k <= 8)%nat -> approx k (f32_zero s) 0.
Proof.
  intros k s K. split; [reflexivity|]. assert (V : val (f32_zero s) = 0%R) by (destruct s; reflexivity).
  rewrite V. split; [left; reflexivity|]. rewrite !Rmult_0_r. lra.
Qed.

Lemma approx_add : forall {E : Env} k x y T U, (k <= 7)%nat -> approx k x T -> approx k y U ->
  (T + U <= bpow radix2 126)%R -> approx (S k) (fadd x y) (T + U).
Proof.
  intros E k x y T U K (Fx & Zx & T0 & Bx) (Fy & Zy & U0 & By) L.
  pose proof (bpow_gt_0 radix2 (-126)) as B0.
  destruct (u24_pow k ltac:(lia)) as [P1 P2].
  assert (X0 : (0 <= val x)%R) by nra. assert (Y0 : (0 <= val y)%R) by nra.
  assert (D : (bpow radix2 127 = 2 * bpow radix2 126)%R) by (change 127 with (1 + 126); rewrite bpow_plus; reflexivity).
  assert (SL : ((1 - u24) ^ k * (T + U) <= val x + val y <= (1 + u24) ^ k * (T + U))%R) by lra.
  assert (S0 : Rabs (val x + val y) = (val x + val y)%R) by (apply Rabs_pos_eq; lra).
  destruct (fadd_R x y Fx Fy) as [A B].
  { apply (small_lt_128 127); [lia|]. rewrite S0, D. nra. }
  split; [assumption|]. rewrite B.
  destruct (Rle_lt_dec (bpow radix2 (-126)) (val x + val y)) as [N|N].
  - pose proof (rnd_rel (val x + val y)) as R. rewrite S0, u24_eq in R. specialize (R N). apply Rabs_le_inv in R.
    split; [|split].
    + right. rewrite <- (rnd_fmt _ (fmt_bpow (-126) ltac:(lia))). apply rnd_le. assumption.
    + lra.
    + assert (Q : (0 < u24 < 1)%R) by (unfold u24; lra).
      change ((1 - u24) ^ S k)%R with ((1 - u24) * (1 - u24) ^ k)%R.
      change ((1 + u24) ^ S k)%R with ((1 + u24) * (1 + u24) ^ k)%R. rewrite !Rmult_assoc.
      split.
      * apply Rle_trans with ((1 - u24) * (val x + val y))%R; [apply Rmult_le_compat_l; lra|lra].
      * apply Rle_trans with ((1 + u24) * (val x + val y))%R; [lra|apply Rmult_le_compat_l; lra].
  - assert (Ex : val x = 0%R) by (destruct Zx as [Zx|Zx]; [assumption|lra]).
    assert (Ey : val y = 0%R) by (destruct Zy as [Zy|Zy]; [assumption|lra]).
    assert (T = 0%R) by nra. assert (U = 0%R) by nra. subst T U. rewrite Ex, Ey, Rplus_0_r.
    rewrite rnd_fmt by apply generic_format_0. split; [left; reflexivity|]. lra.
Qed.

(** Square root of an approximated positive sum. *)
Lemma approx_sqrt : forall {E : Env} k s T, (k <= 8)%nat -> approx k s T -> (0 < T)%R ->
  exists z, F32_sqrt s = Ok z /\ normal_pos z /\
    ((1 - bpow radix2 (-20)) * sqrt T <= val z <= 1.0607 * sqrt T)%R.
Proof.
  intros E k s T K (F & Zs & T0 & B) P. pose proof (bpow_gt_0 radix2 (-126)) as B0.
  destruct (u24_pow k K) as [P1 P2]. destruct (u24_mono k 8 ltac:(lia)) as [M1 M2].
  assert (N : normal_pos s).
  { split; [assumption|]. destruct Zs as [Zs|Zs]; [exfalso; nra|assumption]. }
  destruct (sqrt_accuracy s N) as (z & A1 & A2 & A3). exists z. split; [assumption|]. split; [assumption|].
  assert (Ps : (0 < val s)%R) by (exact (normal_pos_gt0 _ N)).
  assert (V : (bpow radix2 (-20) = / 1048576)%R) by (bpow_lit; lra). rewrite V.
  rewrite u24_eq in A3.
  assert (S1 : (sqrt (val s) <= (1 + u24) ^ 4 * sqrt T)%R).
  { rewrite <- (sqrt_square ((1 + u24) ^ 4)) by (unfold u24; simpl; lra). rewrite <- sqrt_mult_alt by (unfold u24; simpl; lra).
    apply sqrt_le_1_alt. rewrite <- pow_add. simpl Nat.add. nra. }
  assert (S2 : ((1 - u24) ^ 4 * sqrt T <= sqrt (val s))%R).
  { rewrite <- (sqrt_square ((1 - u24) ^ 4)) by (unfold u24; simpl; lra). rewrite <- sqrt_mult_alt by (unfold u24; simpl; lra).
    apply sqrt_le_1_alt. rewrite <- pow_add. simpl Nat.add. nra. }
  assert (h0 : (0 <= sqrt T)%R) by apply sqrt_pos.
  assert (Q1 : ((1 + u24) ^ 4 <= 1.0000003)%R) by (unfold u24; simpl; lra).
  assert (Q2 : (1 - / 2000000 <= (1 - u24) ^ 4)%R) by (unfold u24; simpl; lra).
  assert (Q3 : (0 < u24 < / 16777215)%R) by (unfold u24; lra).
  split.
  - apply Rle_trans with ((1 - u24) * sqrt (val s))%R; [|lra].
    apply Rle_trans with ((1 - u24) * ((1 - / 2000000) * sqrt T))%R.
    + rewrite <- Rmult_assoc. apply Rmult_le_compat_r; [assumption|]. unfold u24. lra.
    + apply Rmult_le_compat_l; [lra|]. apply Rle_trans with ((1 - u24) ^ 4 * sqrt T)%R; [|assumption].
      apply Rmult_le_compat_r; lra.
  - apply Rle_trans with (1.06067 * (1.0000003 * sqrt T))%R; [|lra].
    apply Rle_trans with (1.06067 * sqrt (val s))%R; [lra|]. apply Rmult_le_compat_l; [lra|].
    apply Rle_trans with ((1 + u24) ^ 4 * sqrt T)%R; [assumption|]. apply Rmult_le_compat_r; lra.
Qed.
