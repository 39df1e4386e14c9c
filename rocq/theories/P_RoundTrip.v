(** * Proofs for C111: functions followed by their inverses *)

From Coq Require Import ZArith Reals Bool List Lia Lra.
From Flocq Require Import Core IEEE754.Binary IEEE754.Bits.
From Verif Require Import Base Spec Float F32Lemmas BitLemmas P_Trunc P_Floor Literals ErrLemmas P_RoundEdge NanLemmas
  P_Roots P_InvSqrt P_Exp P_Ln P_Trig AngleReal P_SumSq P_Atan P_Asin P_Order P_Order2 RealBounds RealBounds2.
Open Scope Z_scope.

Lemma exp_small : forall t d, (Rabs t <= d)%R -> (d < 1)%R -> (1 - d <= exp t <= / (1 - d))%R.
Proof.
  intros t d H D. apply Rabs_le_inv in H. split.
  - pose proof (exp_ineq1_le t). lra.
  - pose proof (exp_ineq1_le (- t)) as P. rewrite exp_Ropp in P. pose proof (exp_pos t) as Q.
    rewrite <- (Rinv_inv (exp t)). apply Rinv_le_contravar; lra.
Qed.

Lemma exp_near : forall a x d, (0 < x)%R -> (Rabs (a - ln x) <= d)%R -> (d <= 0.0001)%R -> (Rabs (exp a - x) <= 1.001 * d * x)%R.
Proof.
  intros a x d X H D. pose proof (Rabs_pos (a - ln x)) as d0.
  replace (exp a) with (exp (a - ln x) * x)%R.
  2:{ rewrite <- (exp_ln x) at 2 by exact X. rewrite <- exp_plus. f_equal. ring. }
  destruct (exp_small _ _ H ltac:(lra)) as [L U].
  assert (V : (/ (1 - d) <= 1 + 1.001 * d)%R).
  { apply Rmult_le_reg_l with (1 - d)%R; [lra|]. rewrite Rinv_r by lra.
    assert (0 <= d * (0.0001 - d))%R by (apply Rmult_le_pos; lra). lra. }
  replace (exp (a - ln x) * x - x)%R with ((exp (a - ln x) - 1) * x)%R by ring.
  rewrite Rabs_mult, (Rabs_pos_eq x) by lra. apply Rmult_le_compat_r; [lra|]. apply Rabs_le. lra.
Qed.

Lemma ln_mono : forall a b, (0 < a)%R -> (a <= b)%R -> (ln a <= ln b)%R.
Proof. intros a b P H; destruct H as [H|H]; [left; apply ln_increasing; assumption|rewrite H; right; reflexivity]. Qed.

Lemma exp_of_ln : forall {E : Env} x, fin x -> (1 <= val x <= bpow radix2 127)%R ->
  exists r, F32_exp (F32_ln x) = Ok r /\ fin r /\ (Rabs (val r - val x) <= 0.00084 * val x)%R.
Proof.
  intros E x F [L U]. destruct (ln_acc_ge1 x F L) as [FL AL].
  assert (P : (0 <= val (F32_ln x))%R).
  { destruct (ln_sign_iff x F ltac:(lra)) as (_ & _ & S2). destruct (Rle_or_lt 0 (val (F32_ln x))) as [H|H]; [exact H|]. apply S2 in H. lra. }
  assert (M : (ln (val x) <= 88.1)%R).
  { apply Rle_trans with (ln (bpow radix2 127)); [apply ln_mono; lra|].
    rewrite bpow_powerRZ. change (IZR radix2) with 2%R. change (powerRZ 2 127) with (2 ^ 127)%R. rewrite ln_pow by lra.
    pose proof ln2_bounds. rewrite INR_IZR_INZ. change (Z.of_nat 127) with 127. lra. }
  pose proof (Rabs_le_inv _ _ AL) as AL'.
  destruct (exp_acc_pos (F32_ln x) FL ltac:(lra)) as (r & Er & Fr & _ & Ar).
  exists r. split; [exact Er|]. split; [exact Fr|].
  pose proof (exp_near _ (val x) _ ltac:(lra) AL ltac:(lra)) as N.
  apply Rabs_le_inv in Ar, N. apply Rabs_le. set (ee := exp _) in *. lra.
Qed.

Lemma exp_of_ln_lt1 : forall {E : Env} x, normal_pos x -> (bpow radix2 (-125) <= val x < 1)%R ->
  exists r, F32_exp (F32_ln x) = Ok r /\ fin r /\ (0.885 * val x <= val r <= 1.0025 * val x)%R.
Proof.
  intros E x N [L U]. destruct (ln_acc_lt1 x N U) as [FL AL].
  pose proof (bpow_gt_0 radix2 (-125)) as b0.
  assert (M : (-86.65 <= ln (val x))%R).
  { apply Rle_trans with (ln (bpow radix2 (-125))); [|apply ln_mono; lra].
    change (-125) with (- (125)). rewrite bpow_opp, ln_Rinv by apply bpow_gt_0.
    rewrite bpow_powerRZ. change (IZR radix2) with 2%R. change (powerRZ 2 125) with (2 ^ 125)%R. rewrite ln_pow by lra.
    pose proof ln2_bounds. rewrite INR_IZR_INZ. change (Z.of_nat 125) with 125. lra. }
  assert (M1 : (ln (val x) < 0)%R) by (rewrite <- ln_1; apply ln_increasing; lra).
  assert (P : (val (F32_ln x) <= 0)%R).
  { destruct (ln_sign_iff x (proj1 N) ltac:(lra)) as (_ & S1 & _). destruct (Rle_or_lt (val (F32_ln x)) 0) as [H|H]; [exact H|]. apply S1 in H. lra. }
  destruct (exp_acc_neg (F32_ln x) FL ltac:(lra)) as (r & Er & Fr & _ & Ar).
  exists r. split; [exact Er|]. split; [exact Fr|].
  set (t := (val (F32_ln x) - ln (val x))%R) in *.
  assert (Ee : exp (val (F32_ln x)) = (exp t * val x)%R).
  { rewrite <- (exp_ln (val x)) at 1 by lra. rewrite <- exp_plus. f_equal. unfold t. ring. }
  assert (Q1 : (0.8872 <= exp t)%R).
  { assert (Q : (0.970535 <= exp (t / 4))%R) by (pose proof (exp_ineq1_le (t / 4)); lra).
    replace t with (t / 4 + t / 4 + (t / 4 + t / 4))%R by field. rewrite !exp_plus.
    assert (Q2 : (0.970535 * 0.970535 <= exp (t / 4) * exp (t / 4))%R) by (apply Rmult_le_compat; lra).
    assert (Q4 : (0.970535 * 0.970535 * (0.970535 * 0.970535) <= exp (t / 4) * exp (t / 4) * (exp (t / 4) * exp (t / 4)))%R) by (apply Rmult_le_compat; lra).
    lra. }
  assert (Q2 : (exp t <= 1.0000762)%R).
  { pose proof (exp_ineq1_le (- t)) as K. rewrite exp_Ropp in K. pose proof (exp_pos t).
    assert (/ exp t >= 0.9999239)%R by lra.
    rewrite <- (Rinv_inv (exp t)). apply Rle_trans with (/ 0.9999239)%R; [apply Rinv_le_contravar; lra|].
    apply Rmult_le_reg_l with 0.9999239%R; [lra|]. rewrite Rinv_r by lra. lra. }
  rewrite Ee in Ar. apply Rabs_le_inv in Ar.
  assert (0.8872 * val x <= exp t * val x)%R by (apply Rmult_le_compat_r; lra).
  assert (exp t * val x <= 1.0000762 * val x)%R by (apply Rmult_le_compat_r; lra).
  set (ee := (exp t * val x)%R) in *. lra.
Qed.

Lemma ln_of_exp : forall {E : Env} x, fin x -> (0 <= val x <= 88.72283172607421875)%R ->
  exists r, F32_exp x = Ok r /\ fin (F32_ln r) /\ (Rabs (val (F32_ln r) - val x) <= 0.00084)%R.
Proof.
  intros E x F H. destruct (exp_acc_pos x F H) as (r & Er & Fr & P & A).
  destruct (exp_ge1 x F H) as (r' & Er' & _ & G). assert (r' = r) by congruence. subst r'.
  exists r. split; [exact Er|]. destruct (ln_acc_ge1 r Fr G) as [FL AL]. split; [exact FL|].
  assert (K : (Rabs (ln (val r) - val x) <= 0.000763)%R).
  { pose proof (exp_pos (val x)) as Q. apply Rabs_le_inv in A.
    assert (D : (ln (val r) - val x = ln (val r / exp (val x)))%R).
    { unfold Rdiv. rewrite ln_mult, ln_Rinv, ln_exp; try lra. apply Rinv_0_lt_compat, exp_pos. }
    rewrite D. set (k := (val r / exp (val x))%R).
    assert (B : (0.999239 <= k <= 1.000761)%R).
    { unfold k. split; apply Rmult_le_reg_r with (exp (val x)); trivial; unfold Rdiv; rewrite (Rmult_assoc (val r)), Rinv_l, Rmult_1_r by lra; lra. }
    apply Rabs_le. split.
    - apply Rle_trans with (ln (exp (Ropp 0.000763))); [rewrite ln_exp; lra|]. apply ln_mono; [apply exp_pos|]. apply Rle_trans with 0.999239%R; [|lra].
      rewrite <- (Rinv_inv 0.999239). rewrite exp_Ropp.
      apply Rinv_le_contravar; [apply Rinv_0_lt_compat; lra|]. apply Rle_trans with (1 + 0.000763)%R; [|apply exp_ineq1_le].
      apply Rmult_le_reg_l with 0.999239%R; [lra|]. rewrite Rinv_r by lra. lra.
    - rewrite <- (ln_exp 0.000763). apply ln_mono; [lra|]. pose proof (exp_ineq1_le 0.000763). lra. }
  apply Rabs_le_inv in AL, K. apply Rabs_le. lra.
Qed.

Lemma sin_of_asin : forall {E : Env} x, fin x -> (Rabs (val x) <= 1)%R ->
  exists r, F32_asin x = Ok r /\ fin (F32_sin r) /\ (Rabs (val (F32_sin r) - val x) <= 0.0221)%R.
Proof.
  intros E x F H. destruct (asin_acc x F H) as (r & Er & Fr & A). exists r. split; [exact Er|].
  pose proof (asin_bound (val x)) as B. pose proof PI_4 as P4. pose proof (Rabs_le_inv _ _ A) as A'.
  assert (R : (Rabs (val r) <= 3)%R) by (apply Rabs_le; lra).
  destruct (sin_acc r Fr ltac:(lra)) as [Fs As]. split; [exact Fs|].
  pose proof (sin_lip (val r) (asin (val x))) as L. apply Rabs_le_inv in H. rewrite sin_asin in L by lra.
  assert (L' : (Rabs (sin (val r) - val x) <= 0.0209)%R) by lra.
  apply Rabs_le_inv in As, L'. apply Rabs_le. lra.
Qed.

Lemma cos_of_acos : forall {E : Env} x, fin x -> (Rabs (val x) <= 1)%R -> (val x = 0%R \/ (bpow radix2 (-64) < Rabs (val x))%R) ->
  exists r, F32_acos x = Ok r /\ fin (F32_cos r) /\ (Rabs (val (F32_cos r) - val x) <= 0.0339)%R.
Proof.
  intros E x F H Z. destruct (acos_acc x F H Z) as (r & Er & Fr & A). exists r. split; [exact Er|].
  pose proof (acos_bound (val x)) as B. pose proof PI_4 as P4. pose proof (Rabs_le_inv _ _ A) as A'.
  assert (R : (Rabs (val r) <= 5)%R) by (apply Rabs_le; lra).
  destruct (cos_acc r Fr ltac:(lra)) as [Fs As]. split; [exact Fs|].
  pose proof (cos_lip (val r) (acos (val x))) as L. apply Rabs_le_inv in H. rewrite cos_acos in L by lra.
  assert (L' : (Rabs (cos (val r) - val x) <= 0.0327)%R) by lra.
  apply Rabs_le_inv in As, L'. apply Rabs_le. lra.
Qed.

Lemma cos_lower : forall a, (Rabs a <= 0.79)%R -> (0.687 <= cos a)%R.
Proof.
  intros a H. pose proof (cos_2a_sin (a / 2)) as C. replace (2 * (a / 2))%R with a in C by field.
  pose proof (sin_lip (a / 2) 0) as S. rewrite sin_0, !Rminus_0_r in S.
  assert (A : (Rabs (a / 2) <= 0.395)%R). { unfold Rdiv. rewrite Rabs_mult, (Rabs_pos_eq (/ 2)) by lra. lra. }
  assert (Q : (sin (a / 2) * sin (a / 2) <= 0.395 * 0.395)%R).
  { rewrite <- (Rabs_pos_eq (sin (a / 2) * sin (a / 2))) by (apply Rle_0_sqr). rewrite Rabs_mult. apply Rmult_le_compat; try apply Rabs_pos; lra. }
  rewrite C. lra.
Qed.

Lemma tan_of_atan : forall {E : Env} x, fin x -> (Rabs (val x) <= 1)%R ->
  fin (F32_tan (F32_atan x)) /\ (Rabs (val (F32_tan (F32_atan x)) - val x) <= 0.0176)%R.
Proof.
  intros E x F H. destruct (atan_acc x F) as (Fa & _ & _ & A).
  { eapply Rle_lt_trans; [exact H|]. change 1%R with (bpow radix2 0). apply bpow_lt. lia. }
  set (a := F32_atan x) in *.
  assert (P : (PI / 4 <= 0.786)%R) by (pose proof PI_bounds; lra).
  assert (B : (Rabs (atan (val x)) <= 0.786)%R).
  { apply Rabs_le_inv in H. apply Rabs_le. split.
    - apply Rle_trans with (- (PI / 4))%R; [lra|]. rewrite <- atan_1, <- atan_opp.
      destruct (Req_dec (- (1)) (val x)) as [N|N]; [right; rewrite <- N; reflexivity|]. left. apply atan_increasing. lra.
    - apply Rle_trans with (PI / 4)%R; [|exact P]. rewrite <- atan_1.
      destruct (Req_dec (val x) 1) as [N|N]; [right; rewrite N; reflexivity|]. left. apply atan_increasing. lra. }
  pose proof (Rabs_le_inv _ _ A) as A'. pose proof (Rabs_le_inv _ _ B) as B'.
  assert (Ba : (Rabs (val a) <= 0.79)%R) by (apply Rabs_le; lra).
  destruct (tan_1_2 a Fa ltac:(lra)) as [Ft At]. split; [exact Ft|].
  pose proof (cos_lower (val a) Ba) as C1. pose proof (cos_lower (atan (val x)) ltac:(lra)) as C2.
  assert (D : (tan (val a) - val x = sin (val a - atan (val x)) / (cos (val a) * cos (atan (val x))))%R).
  { rewrite <- (tan_atan (val x)) at 1. unfold tan. rewrite sin_minus. field. lra. }
  assert (C : (0.4719 <= cos (val a) * cos (atan (val x)))%R).
  { apply Rle_trans with (0.687 * 0.687)%R; [lra|]. apply Rmult_le_compat; lra. }
  assert (S : (Rabs (sin (val a - atan (val x))) <= 0.00284)%R).
  { pose proof (sin_lip (val a - atan (val x)) 0) as L. rewrite sin_0, !Rminus_0_r in L. lra. }
  assert (K : (Rabs (tan (val a) - val x) <= 0.0062)%R).
  { rewrite D. unfold Rdiv. rewrite Rabs_mult, Rabs_inv, (Rabs_pos_eq (cos _ * cos _)) by lra.
    apply Rmult_le_reg_r with (cos (val a) * cos (atan (val x)))%R; [lra|].
    rewrite Rmult_assoc, Rinv_l, Rmult_1_r by lra. lra. }
  apply Rabs_le_inv in At, K. apply Rabs_le. lra.
Qed.

Lemma square_of_sqrt : forall {E : Env} x, normal_pos x -> (bpow radix2 (-125) <= val x <= bpow radix2 126)%R ->
  exists z, F32_sqrt x = Ok z /\ fin (fmul z z) /\ (0.9999997 * val x <= val (fmul z z) <= 1.12503 * val x)%R.
Proof.
  intros E x N [Lo Hi]. destruct (sqrt_accuracy x N) as (z & Ez & Nz & Az). exists z. split; [exact Ez|].
  pose proof (bpow_gt_0 radix2 (-125)) as b0.
  assert (SS : (sqrt (val x) * sqrt (val x) = val x)%R) by (apply sqrt_sqrt; lra).
  assert (s0 : (0 < sqrt (val x))%R) by (apply sqrt_lt_R0; lra).
  set (s := sqrt (val x)) in *. rewrite u24_eq in Az. unfold u24 in Az.
  assert (Z1 : ((1 - / 16777216) * (1 - / 16777216) * val x <= val z * val z)%R).
  { rewrite <- SS. replace ((1 - / 16777216) * (1 - / 16777216) * (s * s))%R with (((1 - / 16777216) * s) * ((1 - / 16777216) * s))%R by ring.
    apply Rmult_le_compat; lra. }
  assert (Z2 : (val z * val z <= 1.06067 * 1.06067 * val x)%R).
  { rewrite <- SS. replace (1.06067 * 1.06067 * (s * s))%R with ((1.06067 * s) * (1.06067 * s))%R by ring.
    apply Rmult_le_compat; lra. }
  assert (RR : (Rabs (rnd (val z * val z) - val z * val z) <= u24 * Rabs (val z * val z))%R).
  { apply rnd_rel. rewrite Rabs_pos_eq by lra. apply Rle_trans with (/ 2 * val x)%R; [|lra].
    apply Rle_trans with (/ 2 * bpow radix2 (-125))%R; [|lra]. change (/ 2)%R with (bpow radix2 (-1)). rewrite <- bpow_plus. apply bpow_le. lia. }
  rewrite (Rabs_pos_eq (val z * val z)) in RR by lra. apply Rabs_le_inv in RR. unfold u24 in RR.
  destruct (fmul_R z z (proj1 Nz) (proj1 Nz)) as [Fm Vm].
  - apply Rle_lt_trans with (2 * val x)%R; [rewrite Rabs_pos_eq; lra|].
    apply Rle_lt_trans with (2 * bpow radix2 126)%R; [lra|]. change 2%R with (bpow radix2 1). rewrite <- bpow_plus. apply bpow_lt. lia.
  - split; [exact Fm|]. rewrite Vm. lra.
Qed.

Lemma invsqrt_vs_sqrt : forall {E : Env} x, normal_pos x ->
  exists z y, F32_sqrt x = Ok z /\ F32_invsqrt x = Ok y /\ (0.9652 <= val z * val y <= 1.0975)%R.
Proof.
  intros E x N. destruct (sqrt_accuracy x N) as (z & Ez & Nz & Az). destruct (invsqrt_accuracy x N) as (y & Ey & Ny & Ay).
  exists z, y. split; [exact Ez|]. split; [exact Ey|].
  assert (x0 : (0 < val x)%R) by (destruct N as [_ N]; pose proof (bpow_gt_0 radix2 (-126)); lra).
  assert (y0 : (0 < val y)%R) by (destruct Ny as [_ Ny]; pose proof (bpow_gt_0 radix2 (-126)); lra).
  apply Rabs_le_inv in Ay. rewrite u24_eq in Az. unfold u24 in Az. set (s := sqrt (val x)) in *.
  assert (val z * val y <= 1.06067 * s * val y)%R by (apply Rmult_le_compat_r; lra).
  assert ((1 - / 16777216) * s * val y <= val z * val y)%R by (apply Rmult_le_compat_r; lra).
  lra.
Qed.

Lemma exp_ln_bad : forall {E : Env}, exists x r, normal_pos x /\ (0.69 < val x < 0.71)%R /\
  F32_exp (F32_ln x) = Ok r /\ fin r /\ (val r < 0.9 * val x)%R.
Proof.
  intros E. exists (from_bits 0x3F333333), (from_bits 0x3F200DFA).
  assert (X : fin (from_bits 0x3F333333) /\ val (from_bits 0x3F333333) = (11744051 / 16777216)%R) by (split; [exact (proj1 (lit_val 0x3F333333 eq_refl))|lit 0x3F333333; bpow_lit; lra]).
  assert (R : fin (from_bits 0x3F200DFA) /\ val (from_bits 0x3F200DFA) = (10489338 / 16777216)%R) by (split; [exact (proj1 (lit_val 0x3F200DFA eq_refl))|lit 0x3F200DFA; bpow_lit; lra]).
  destruct X as [FX VX], R as [FR VR].
  split; [split; [exact FX|rewrite VX; apply Rle_trans with (bpow radix2 (-1)); [apply bpow_le; lia|change (bpow radix2 (-1)) with (/ 2)%R; lra]]|].
  split; [rewrite VX; lra|]. split.
  - destruct E as [oc da n1 n2 n3 n4 n5 n6]. destruct da; apply ok_bits; vm_compute; reflexivity.
  - split; [exact FR|]. rewrite VX, VR. lra.
Qed.
