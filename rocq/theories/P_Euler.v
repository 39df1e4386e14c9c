(** * axis_angle and to_euler *)

From Coq Require Import ZArith Reals Bool List Lia Lra.
From Flocq Require Import Core IEEE754.Binary IEEE754.Bits.
From Verif Require Import P_Floor.
From Verif Require Import Base Spec Float Vector Quaternion QuatReal F32Lemmas BitLemmas Literals ErrLemmas
  NanLemmas P_SumSq P_Quat P_Trig P_Atan P_Atan2 P_Asin P_TrigEdge AngleReal RealBounds2 P_RoundEdge.
Import ListNotations.
Open Scope Z_scope.

#[local] Arguments F32_atan : simpl never.

(** ** Polar form of a point other than the origin *)

Lemma polar : forall a b : R, (0 < a * a + b * b)%R -> exists rho th, (0 < rho)%R /\ (rho * rho = a * a + b * b)%R /\
  (- PI < th <= PI)%R /\ b = (rho * cos th)%R /\ a = (rho * sin th)%R.
Proof.
  intros a b H. assert (H' : (0 < Rabs a * Rabs a + Rabs b * Rabs b)%R).
  { rewrite <- !Rabs_mult, !Rabs_pos_eq by nra. exact H. }
  destruct (ang_spec (Rabs a) (Rabs b) (Rabs_pos a) (Rabs_pos b) H') as (h & Hh & Hs & Ha & Hb).
  pose proof (ang_range (Rabs a) (Rabs b) (Rabs_pos a) (Rabs_pos b)) as R. set (t := ang (Rabs a) (Rabs b)) in *.
  rewrite <- !Rabs_mult in Hs. rewrite !Rabs_pos_eq in Hs by nra. pose proof PI_RGT_0 as P.
  destruct (Rle_or_lt 0 b) as [B|B]; destruct (Rle_or_lt 0 a) as [A|A].
  - rewrite (Rabs_pos_eq a A) in Ha. rewrite (Rabs_pos_eq b B) in Hb. exists h, t.
    repeat split; try assumption; try lra; symmetry; assumption.
  - rewrite (Rabs_left a A) in Ha. rewrite (Rabs_pos_eq b B) in Hb. exists h, (- t)%R.
    rewrite cos_neg, sin_neg. repeat split; try assumption; try lra.
  - rewrite (Rabs_pos_eq a A) in Ha. rewrite (Rabs_left b B) in Hb. exists h, (PI - t)%R.
    rewrite Rtrigo_facts.cos_pi_minus, Rtrigo_facts.sin_pi_minus. repeat split; try assumption; try lra.
  - rewrite (Rabs_left a A) in Ha. rewrite (Rabs_left b B) in Hb. exists h, (t - PI)%R.
    replace (t - PI)%R with (- (PI - t))%R by ring. rewrite cos_neg, sin_neg.
    rewrite Rtrigo_facts.cos_pi_minus, Rtrigo_facts.sin_pi_minus. repeat split; try assumption; try lra.
    destruct (Req_dec t 0) as [Z|Z]; [|lra]. rewrite Z, sin_0 in Ha. lra.
Qed.

(** ** The sums of two products *)

Definition comp_ok (x : f32) : Prop := fin x /\ (Rabs (val x) <= 1.06)%R.

Lemma eta_tiny : (0 < eta <= / 1000000000)%R.
Proof.
  split; [apply eta_pos|]. unfold eta. apply Rle_trans with (bpow radix2 (-30)); [apply bpow_le; lia|]. bpow_lit. lra.
Qed.
Lemma u24_num : u24 = (/ 16777216)%R.
Proof. unfold u24. bpow_lit. lra. Qed.
Lemma big127 : (1000 <= bpow radix2 127)%R.
Proof. apply Rle_trans with (bpow radix2 10); [bpow_lit; lra|apply bpow_le; lia]. Qed.

Ltac small := pose proof eta_tiny; pose proof big127; rewrite ?u24_num; lra.

Lemma prod_tr : forall {E : Env} a b, comp_ok a -> comp_ok b -> tr (fmul a b) (val a * val b) 1.1236 0.0000001.
Proof.
  intros E a b [Fa Ha] [Fb Hb]. eapply tr_weaken; [eapply tr_mul; [apply (tr_in a 1.06 Fa Ha)|apply (tr_in b 1.06 Fb Hb)|]|..]; small.
Qed.

Lemma two_sum_tr : forall {E : Env} a b c d, comp_ok a -> comp_ok b -> comp_ok c -> comp_ok d ->
  tr (fmul c_2 (fadd (fmul a b) (fmul c d))) (2 * (val a * val b + val c * val d)) 4.5 0.000001.
Proof.
  intros E a b c d Ha Hb Hc Hd. pose proof (prod_tr a b Ha Hb) as P. pose proof (prod_tr c d Hc Hd) as Q.
  eapply tr_weaken; [eapply tr_mul; [apply (tr_const c_2 2 c_2_val)|eapply tr_add; [exact P|exact Q|small]|]|..];
    rewrite (Rabs_pos_eq 2) by lra; small.
Qed.

Lemma two_diff_tr : forall {E : Env} a b c d, comp_ok a -> comp_ok b -> comp_ok c -> comp_ok d ->
  tr (fmul c_2 (fsub (fmul a b) (fmul c d))) (2 * (val a * val b - val c * val d)) 4.5 0.000001.
Proof.
  intros E a b c d Ha Hb Hc Hd. pose proof (prod_tr a b Ha Hb) as P. pose proof (prod_tr c d Hc Hd) as Q.
  eapply tr_weaken; [eapply tr_mul; [apply (tr_const c_2 2 c_2_val)|eapply tr_sub; [exact P|exact Q|small]|]|..];
    rewrite (Rabs_pos_eq 2) by lra; small.
Qed.

Lemma one_minus_tr : forall {E : Env} a b, comp_ok a -> comp_ok b ->
  tr (fsub F32_ONE (fmul c_2 (fadd (fmul a a) (fmul b b)))) (1 - 2 * (val a * val a + val b * val b)) 5.5 0.0000015.
Proof.
  intros E a b Ha Hb. pose proof (two_sum_tr a a b b Ha Ha Hb Hb) as P.
  eapply tr_weaken; [eapply tr_sub; [apply (tr_const F32_ONE 1 P_Floor.one_val)|exact P|]|..];
    rewrite (Rabs_pos_eq 1) by lra; small.
Qed.

(** ** atan2 of nearly known arguments *)

Lemma sin_2pi : forall t, sin (t + 2 * PI) = sin t.
Proof. intros t. rewrite <- (sin_period t 1). f_equal. simpl. ring. Qed.
Lemma cos_2pi : forall t, cos (t + 2 * PI) = cos t.
Proof. intros t. rewrite <- (cos_period t 1). f_equal. simpl. ring. Qed.

Lemma norm_diff : forall r s a b c d e, (0 <= r)%R -> (0 < s)%R -> (0 <= e)%R -> (r * r = a * a + b * b)%R -> (s * s = c * c + d * d)%R ->
  (Rabs (a - c) <= e)%R -> (Rabs (b - d) <= e)%R -> (Rabs (r - s) <= 2 * e)%R.
Proof.
  intros r s a b c d e Hr Hs He R S A B. apply Rabs_le_inv in A, B.
  assert (CS : (a * c + b * d <= r * s)%R).
  { apply Rsqr_incr_0_var; [|nra]. unfold Rsqr. 
    replace (r * s * (r * s))%R with ((r * r) * (s * s))%R by ring. rewrite R, S.
    pose proof (Rle_0_sqr (a * d - b * c)) as Q. unfold Rsqr in Q. lra. }
  assert (D : ((r - s) * (r - s) <= 2 * e * e)%R).
  { assert ((a - c) * (a - c) <= e * e)%R by nra. assert ((b - d) * (b - d) <= e * e)%R by nra. nra. }
  assert (D' : ((r - s) * (r - s) <= (2 * e) * (2 * e))%R) by nra. clear - D' He.
  apply Rabs_le. split; nra.
Qed.

Lemma scaled_close : forall rho r t X Y e : R, (0 < rho)%R -> X = (rho * Y)%R -> (Rabs (r - Y) <= t)%R -> (Rabs (rho * r - X) <= rho * t)%R.
Proof.
  intros rho r t X Y _ P -> H. rewrite <- Rmult_minus_distr_l, Rabs_mult, (Rabs_pos_eq rho) by lra.
  apply Rmult_le_compat_l; lra.
Qed.

Lemma atan2_near : forall {E : Env} y x Y X rho, near 0.0000015 y Y -> near 0.0000015 x X ->
  (Rabs Y <= 100)%R -> (Rabs X <= 100)%R -> (0.00001 <= rho)%R -> (rho * rho = Y * Y + X * X)%R ->
  fin (F32_atan2 y x) /\ (Rabs (rho * sin (val (F32_atan2 y x)) - Y) <= 0.00284 * rho + 0.0000076)%R /\
  (Rabs (rho * cos (val (F32_atan2 y x)) - X) <= 0.00284 * rho + 0.0000076)%R.
Proof.
  intros E y x Y X rho [Fy Hy] [Fx Hx] BY BX Hr Er.
  apply Rabs_le_inv in Hy as Hy', Hx as Hx', BY as BY', BX as BX'.
  assert (B60 : (bpow radix2 (-60) <= 0.000001)%R).
  { apply Rle_trans with (bpow radix2 (-20)); [apply bpow_le; lia|bpow_lit; lra]. }
  assert (B62 : (101 <= bpow radix2 62)%R).
  { apply Rle_trans with (bpow radix2 10); [bpow_lit; lra|apply bpow_le; lia]. }
  assert (Big : (0.000005 <= Rabs Y \/ 0.000005 <= Rabs X)%R).
  { destruct (Rle_or_lt 0.000005 (Rabs Y)) as [L|L]; [left; exact L|].
    destruct (Rle_or_lt 0.000005 (Rabs X)) as [K|K]; [right; exact K|exfalso].
    assert (A : (Rabs Y * Rabs Y < 0.000005 * 0.000005)%R) by (pose proof (Rabs_pos Y); nra).
    assert (B : (Rabs X * Rabs X < 0.000005 * 0.000005)%R) by (pose proof (Rabs_pos X); nra).
    rewrite <- !Rabs_mult, !Rabs_pos_eq in A, B by nra. nra. }
  assert (Big' : (0.000003 <= Rabs (val y) \/ 0.000003 <= Rabs (val x))%R).
  { destruct Big as [L|L]; [left|right].
    - pose proof (Rabs_triang_inv Y (Y - val y)) as T. rewrite (Rabs_minus_sym Y) in T.
      replace (Y - (Y - val y))%R with (val y) in T by ring. lra.
    - pose proof (Rabs_triang_inv X (X - val x)) as T. rewrite (Rabs_minus_sym X) in T.
      replace (X - (X - val x))%R with (val x) in T by ring. lra. }
  assert (Pos : (0 < val y * val y + val x * val x)%R).
  { destruct Big' as [L|L].
    - assert (A : (0 < Rabs (val y) * Rabs (val y))%R) by nra. rewrite <- Rabs_mult, Rabs_pos_eq in A by nra. nra.
    - assert (A : (0 < Rabs (val x) * Rabs (val x))%R) by nra. rewrite <- Rabs_mult, Rabs_pos_eq in A by nra. nra. }
  destruct (polar (val y) (val x) Pos) as (s & th & Hs & Es & Ht & Vx & Vy).
  destruct (atan2_accuracy y x s th Fx Fy) as [Fr Hacc]; try assumption.
  - apply Rabs_le. lra.
  - apply Rabs_le. lra.
  - destruct Big' as [L|L]; [right|left]; lra.
  - set (r := F32_atan2 y x) in *. split; [exact Fr|].
    assert (SC : (Rabs (sin (val r) - sin th) <= 0.00284 /\ Rabs (cos (val r) - cos th) <= 0.00284)%R).
    { destruct Hacc as [A|(_ & _ & _ & A)].
      - split; eapply Rle_trans; [apply sin_lip|exact A|apply cos_lip|exact A].
      - rewrite <- (sin_2pi th), <- (cos_2pi th). split; eapply Rle_trans; [apply sin_lip|exact A|apply cos_lip|exact A]. }
    destruct SC as [S C].
    pose proof (norm_diff rho s Y X (val y) (val x) 0.0000015 ltac:(lra) Hs ltac:(lra) Er Es
      ltac:(rewrite Rabs_minus_sym; exact Hy) ltac:(rewrite Rabs_minus_sym; exact Hx)) as D.
    apply Rabs_le_inv in D.
    pose proof (scaled_close s _ _ _ _ 0 Hs Vy S) as S1. pose proof (scaled_close s _ _ _ _ 0 Hs Vx C) as C1.
    apply Rabs_le_inv in S1, C1. pose proof (SIN_bound (val r)) as Sb. pose proof (COS_bound (val r)) as Cb.
    assert (W : forall u, (-1 <= u <= 1)%R -> (-0.000003 <= (rho - s) * u <= 0.000003)%R) by (intros u Hu; split; nra).
    pose proof (W _ Sb). pose proof (W _ Cb).
    assert (0.00284 * s <= 0.00284 * rho + 0.00000001)%R by lra.
    split; apply Rabs_le; lra.
Qed.

(** ** to_euler *)

Definition pitch_arg {E : Env} (q : Quat f32) : f32 := fmul c_2 (fsub (fmul (q0 q) (q2 q)) (fmul (q1 q) (q3 q))).

Lemma euler_panic_asin : forall {E : Env} q, Q_to_euler q = Panic <-> F32_asin (pitch_arg q) = Panic.
Proof.
  intros E q. unfold Q_to_euler. fold (pitch_arg q). destruct (F32_asin (pitch_arg q)); unfold bind; split; congruence.
Qed.

Lemma euler_panic : forall {E : Env} q, overflow_checks = true -> is_nan (pitch_arg q) = false ->
  (Q_to_euler q = Panic <-> (fin (pitch_arg q) -> (val (from_bits 0x3F8E236D) <= Rabs (val (pitch_arg q)))%R)).
Proof. intros E q O N. rewrite euler_panic_asin. apply asin_panic; assumption. Qed.

Lemma euler_release : forall {E : Env} q, overflow_checks = false -> exists r, Q_to_euler q = Ok r.
Proof.
  intros E q O. unfold Q_to_euler. destruct (asin_release (pitch_arg q) O) as [p Hp]. unfold pitch_arg in Hp. rewrite Hp.
  eexists. reflexivity.
Qed.

Lemma invsqrt_fuel : forall {E : Env} x, F32_invsqrt x <> NoFuel.
Proof.
  intros E x. unfold F32_invsqrt, arith. generalize (Z.shiftr (to_bits x) 1). intros z.
  destruct (Base.in_range _ _); [unfold bind; discriminate|]. destruct overflow_checks; unfold bind; discriminate.
Qed.

Lemma comps : forall q, fin_quat q -> (rsumsq (q_list q) <= 1.11)%R ->
  comp_ok (q0 q) /\ comp_ok (q1 q) /\ comp_ok (q2 q) /\ comp_ok (q3 q).
Proof.
  intros [a b c d] (Fa & Fb & Fc & Fd) H. unfold q_list, rsumsq in H. cbn [q0 q1 q2 q3 map fold_right] in *.
  pose proof (Rle_0_sqr (val a)) as A. pose proof (Rle_0_sqr (val b)) as B. pose proof (Rle_0_sqr (val c)) as C.
  pose proof (Rle_0_sqr (val d)) as D. unfold Rsqr in *.
  assert (G : forall x : R, (x * x <= 1.11)%R -> (Rabs x <= 1.06)%R).
  { intros x X. apply Rabs_le. split; nra. }
  repeat split; try assumption; apply G; lra.
Qed.

Lemma pitch_tr : forall {E : Env} q, fin_quat q -> (rsumsq (q_list q) <= 1.11)%R ->
  near 0.000001 (pitch_arg q) (2 * (val (q0 q) * val (q2 q) - val (q1 q) * val (q3 q))) /\
  (Rabs (2 * (val (q0 q) * val (q2 q) - val (q1 q) * val (q3 q))) <= rsumsq (q_list q))%R.
Proof.
  intros E q F H. destruct (comps q F H) as (A & B & C & D). destruct (two_diff_tr _ _ _ _ A C B D) as (Fp & _ & Dp).
  split; [split; assumption|]. destruct q as [a b c d]. unfold q_list, rsumsq. cbn [q0 q1 q2 q3 map fold_right].
  generalize (val a) (val b) (val c) (val d). intros w x y z.
  pose proof (Rle_0_sqr (w - y)) as Q1. pose proof (Rle_0_sqr (w + y)) as Q2.
  pose proof (Rle_0_sqr (x - z)) as Q3. pose proof (Rle_0_sqr (x + z)) as Q4. unfold Rsqr in *. apply Rabs_le. split; lra.
Qed.

Lemma euler_no_panic : forall {E : Env} q, fin_quat q -> (rsumsq (q_list q) <= 1.11)%R -> exists r, Q_to_euler q = Ok r.
Proof.
  intros E q F H. destruct overflow_checks eqn:O; [|exact (euler_release q O)].
  destruct (pitch_tr q F H) as [[Fp Dp] B].
  destruct (Q_to_euler q) as [r| |] eqn:K; [exists r; reflexivity|exfalso|exfalso].
  - apply (euler_panic q O (fin_not_nan _ Fp)) in K; [|exact Fp]. revert K.
    pose proof (Rabs_triang_inv (val (pitch_arg q)) (2 * (val (q0 q) * val (q2 q) - val (q1 q) * val (q3 q)))) as T.
    lit 0x3F8E236D. bpow_lit. lra.
  - unfold Q_to_euler in K. fold (pitch_arg q) in K. destruct (F32_asin (pitch_arg q)) as [p| |] eqn:J; unfold bind in K; try discriminate.
    unfold F32_asin in J. pose proof (invsqrt_fuel (fsub F32_ONE (fmul (pitch_arg q) (pitch_arg q)))) as I.
    destruct (F32_invsqrt _) as [i| |]; unfold bind in J; try discriminate. exact (I eq_refl).
Qed.

Lemma euler_after_normalize : forall {E : Env} q, Forall sq_ok (q_list q) -> (0 < rsumsq (q_list q) <= bpow radix2 126)%R ->
  exists n r, Q_normalize q = Ok n /\ Q_to_euler n = Ok r.
Proof.
  intros E q F L. destruct (normalize_accuracy q F L) as (n & Hn & Fn & Bn). exists n.
  destruct (euler_no_panic n) as [r Hr].
  - unfold q_list in Fn. inversion Fn as [|? ? F0 G0]; subst. inversion G0 as [|? ? F1 G1]; subst.
    inversion G1 as [|? ? F2 G2]; subst. inversion G2 as [|? ? F3 G3]; subst. repeat split; assumption.
  - assert (P : (0 <= rsumsq (q_list n))%R).
    { destruct (Rle_or_lt 0 (rsumsq (q_list n))) as [P|P]; [exact P|]. rewrite sqrt_neg_0 in Bn by lra. lra. }
    rewrite <- (sqrt_sqrt _ P). nra.
  - exists r. split; assumption.
Qed.

Lemma asin_result_bound : forall {E : Env} x r, F32_asin x = Ok r -> fin r -> (Rabs (val r) <= val c_FRAC_PI_2)%R.
Proof.
  intros E x r H F. unfold F32_asin in H. destruct (F32_invsqrt _) as [i| |]; unfold bind in H; try discriminate.
  injection H as <-. set (m := fmul x i) in *.
  destruct (is_finite m) eqn:Fm.
  - destruct (Rlt_or_le (Rabs (val m)) (bpow radix2 64)) as [L|L]; [apply (atan_acc m Fm L)|].
    exfalso. destruct (atan_overflow m (fun _ => L)) as [_ N]. unfold nan in N. rewrite (fin_not_nan _ F) in N. discriminate.
  - exfalso. destruct (atan_overflow m) as [_ N]; [intros G; unfold fin in G; congruence|].
    unfold nan in N. rewrite (fin_not_nan _ F) in N. discriminate.
Qed.

Lemma euler_accuracy : forall {E : Env} q, fin_quat q -> (rsumsq (q_list q) <= 1.11)%R ->
  let w := val (q0 q) in let x := val (q1 q) in let y := val (q2 q) in let z := val (q3 q) in
  (Rabs (2 * (w * y - x * z)) <= 0.999999)%R ->
  forall rho1 rho2, (0.00001 <= rho1)%R -> (0.00001 <= rho2)%R ->
  (rho1 * rho1 = (2 * (w * x + y * z)) * (2 * (w * x + y * z)) + (1 - 2 * (x * x + y * y)) * (1 - 2 * (x * x + y * y)))%R ->
  (rho2 * rho2 = (2 * (w * z + x * y)) * (2 * (w * z + x * y)) + (1 - 2 * (y * y + z * z)) * (1 - 2 * (y * y + z * z)))%R ->
  exists roll pitch yaw, Q_to_euler q = Ok (roll, pitch, yaw) /\ fin roll /\ fin pitch /\ fin yaw /\
  (Rabs (rho1 * sin (val roll) - 2 * (w * x + y * z)) <= 0.00284 * rho1 + 0.0000076)%R /\
  (Rabs (rho1 * cos (val roll) - (1 - 2 * (x * x + y * y))) <= 0.00284 * rho1 + 0.0000076)%R /\
  (Rabs (val pitch) <= val c_FRAC_PI_2)%R /\ (Rabs (sin (val pitch) - 2 * (w * y - x * z)) <= 0.021)%R /\
  (Rabs (rho2 * sin (val yaw) - 2 * (w * z + x * y)) <= 0.00284 * rho2 + 0.0000076)%R /\
  (Rabs (rho2 * cos (val yaw) - (1 - 2 * (y * y + z * z))) <= 0.00284 * rho2 + 0.0000076)%R.
Proof.
  intros E q F H w x y z S rho1 rho2 R1 R2 E1 E2.
  destruct (comps q F H) as (A & B & C & D). destruct (pitch_tr q F H) as [[Fp Dp] _]. fold w x y z in Dp.
  assert (Hp : (Rabs (val (pitch_arg q)) <= 1)%R) by (apply Rabs_le_inv in S, Dp; apply Rabs_le; lra).
  destruct (asin_acc (pitch_arg q) Fp Hp) as (p & Ep & Fpp & Ap).
  assert (N : forall c X B e, tr c X B e -> (e <= 0.0000015)%R -> near 0.0000015 c X /\ (Rabs X <= B)%R).
  { intros c X b e (G1 & G2 & G3) L. split; [split; [exact G1|lra]|exact G2]. }
  destruct (N _ _ _ _ (two_sum_tr _ _ _ _ A B C D) ltac:(lra)) as [NY1 BY1].
  destruct (N _ _ _ _ (one_minus_tr _ _ B C) ltac:(lra)) as [NX1 BX1].
  destruct (N _ _ _ _ (two_sum_tr _ _ _ _ A D B C) ltac:(lra)) as [NY2 BY2].
  destruct (N _ _ _ _ (one_minus_tr _ _ C D) ltac:(lra)) as [NX2 BX2].
  fold w x y z in NY1, BY1, NX1, BX1, NY2, BY2, NX2, BX2.
  destruct (atan2_near _ _ _ _ rho1 NY1 NX1 ltac:(lra) ltac:(lra) R1 E1) as (Fr & Sr & Cr).
  destruct (atan2_near _ _ _ _ rho2 NY2 NX2 ltac:(lra) ltac:(lra) R2 E2) as (Fy & Sy & Cy).
  do 3 eexists. split.
  { unfold Q_to_euler. unfold pitch_arg in Ep. rewrite Ep. unfold bind. reflexivity. }
  split; [exact Fr|]. split; [exact Fpp|]. split; [exact Fy|]. split; [exact Sr|]. split; [exact Cr|].
  split; [|split; [|split; [exact Sy|exact Cy]]].
  - exact (asin_result_bound _ _ Ep Fpp).
  - pose proof (sin_lip (val p) (asin (val (pitch_arg q)))) as L. apply Rabs_le_inv in Hp as Hp'.
    rewrite sin_asin in L by lra. apply Rabs_le_inv in Dp, Ap.
    assert (L' : (Rabs (sin (val p) - val (pitch_arg q)) <= 0.0209)%R) by (eapply Rle_trans; [exact L|apply Rabs_le; lra]).
    apply Rabs_le_inv in L'. apply Rabs_le. lra.
Qed.

(** Near the pole a quaternion whose norm is off by one rounding gets a zero pitch. *)
Lemma euler_gimbal : forall {E : Env}, exists q roll pitch yaw, fin_quat q /\ (Rabs (rsumsq (q_list q) - 1) <= 0.0000002)%R /\
  (2 * (val (q0 q) * val (q2 q) - val (q1 q) * val (q3 q)) = rsumsq (q_list q))%R /\
  Q_to_euler q = Ok (roll, pitch, yaw) /\ fin pitch /\ (Rabs (val pitch) <= 0.000001)%R.
Proof.
  intros E. set (c := from_bits 0x3F3504F4).
  assert (Ep : F32_asin (pitch_arg (mkQ c F32_ZERO c F32_ZERO)) = Ok (from_bits 0x04E7A8CB)).
  { apply ok_bits. vm_compute. reflexivity. }
  exists (mkQ c F32_ZERO c F32_ZERO). eexists. exists (from_bits 0x04E7A8CB). eexists. split; [exact (conj eq_refl (conj eq_refl (conj eq_refl eq_refl)))|].
  unfold q_list, rsumsq. cbn [q0 q1 q2 q3 fold_right]. change (val F32_ZERO) with 0%R. unfold c.
  split; [lit 0x3F3504F4; bpow_lit; apply Rabs_le; lra|]. split; [ring|]. split.
  { unfold Q_to_euler. unfold pitch_arg in Ep. fold c. rewrite Ep. unfold bind. reflexivity. }
  split; [reflexivity|]. lit 0x04E7A8CB.
  rewrite Rabs_pos_eq. 2: { pose proof (bpow_gt_0 radix2 (-141)). lra. }
  apply Rle_trans with (IZR 16000000 * bpow radix2 (-50))%R; [|bpow_lit; lra].
  assert (bpow radix2 (-141) <= bpow radix2 (-50))%R by (apply bpow_le; lia). pose proof (bpow_gt_0 radix2 (-141)). lra.
Qed.

(** ** The angles over the reals *)

Definition Rrot_x (t : R) (v : Vector3d R) : Vector3d R :=
  (mkV3 (v3x v) (v3y v * cos t - v3z v * sin t) (v3y v * sin t + v3z v * cos t))%R.
Definition Rrot_y (t : R) (v : Vector3d R) : Vector3d R :=
  (mkV3 (v3x v * cos t + v3z v * sin t) (v3y v) (- v3x v * sin t + v3z v * cos t))%R.
Definition Rrot_z (t : R) (v : Vector3d R) : Vector3d R :=
  (mkV3 (v3x v * cos t - v3y v * sin t) (v3x v * sin t + v3y v * cos t) (v3z v))%R.

(** Exact Euler angles of a unit quaternion reproduce its rotation. *)
Lemma euler_real : forall q roll pitch yaw, Rq_norm q = 1%R -> (0 < cos pitch)%R ->
  (sin pitch = 2 * (q0 q * q2 q - q1 q * q3 q))%R ->
  (cos pitch * sin roll = 2 * (q0 q * q1 q + q2 q * q3 q))%R -> (cos pitch * cos roll = 1 - 2 * (q1 q * q1 q + q2 q * q2 q))%R ->
  (cos pitch * sin yaw = 2 * (q0 q * q3 q + q1 q * q2 q))%R -> (cos pitch * cos yaw = 1 - 2 * (q2 q * q2 q + q3 q * q3 q))%R ->
  forall v, Rq_rotate q v = Rrot_z yaw (Rrot_y pitch (Rrot_x roll v)).
Proof.
  intros [w x y z] roll pitch yaw N P HS R1 R2 Y1 Y2 [a b c].
  pose proof (sin2_cos2 pitch) as SC. unfold Rsqr in SC. unfold Rrot_x, Rrot_y, Rrot_z.
  set (cp := cos pitch) in *. set (sp := sin pitch) in *. set (sr := sin roll) in *. set (cr := cos roll) in *.
  set (sy := sin yaw) in *. set (cy := cos yaw) in *. clearbody cp sp sr cr sy cy.
  revert N HS R1 R2 Y1 Y2. rq. intros N HS R1 R2 Y1 Y2. cbn [v3x v3y v3z].
  assert (Hcp : cp <> 0%R) by lra. assert (W : (w * w = 1 - x * x - y * y - z * z)%R) by lra.
  assert (E12 : (cy * sp * sr - sy * cr = 2 * (x * y - w * z))%R).
  { apply (Rmult_eq_reg_l (cp * cp)); [|nra].
    replace (cp * cp * (cy * sp * sr - sy * cr))%R with ((cp * cy) * sp * (cp * sr) - (cp * sy) * (cp * cr))%R by ring.
    replace (cp * cp)%R with (1 - sp * sp)%R by lra. rewrite R1, R2, Y1, Y2, HS. ring [W]. }
  assert (E13 : (cy * sp * cr + sy * sr = 2 * (x * z + w * y))%R).
  { apply (Rmult_eq_reg_l (cp * cp)); [|nra].
    replace (cp * cp * (cy * sp * cr + sy * sr))%R with ((cp * cy) * sp * (cp * cr) + (cp * sy) * (cp * sr))%R by ring.
    replace (cp * cp)%R with (1 - sp * sp)%R by lra. rewrite R1, R2, Y1, Y2, HS. ring [W]. }
  assert (E22 : (sy * sp * sr + cy * cr = 1 - 2 * (x * x + z * z))%R).
  { apply (Rmult_eq_reg_l (cp * cp)); [|nra].
    replace (cp * cp * (sy * sp * sr + cy * cr))%R with ((cp * sy) * sp * (cp * sr) + (cp * cy) * (cp * cr))%R by ring.
    replace (cp * cp)%R with (1 - sp * sp)%R by lra. rewrite R1, R2, Y1, Y2, HS. ring [W]. }
  assert (E23 : (sy * sp * cr - cy * sr = 2 * (y * z - w * x))%R).
  { apply (Rmult_eq_reg_l (cp * cp)); [|nra].
    replace (cp * cp * (sy * sp * cr - cy * sr))%R with ((cp * sy) * sp * (cp * cr) - (cp * cy) * (cp * sr))%R by ring.
    replace (cp * cp)%R with (1 - sp * sp)%R by lra. rewrite R1, R2, Y1, Y2, HS. ring [W]. }
  f_equal.
  - match goal with |- _ = ?r => replace r with (a * (cp * cy) + b * (cy * sp * sr - sy * cr) + c * (cy * sp * cr + sy * sr))%R by ring end.
    rewrite E12, E13, Y2. ring [W].
  - match goal with |- _ = ?r => replace r with (a * (cp * sy) + b * (sy * sp * sr + cy * cr) + c * (sy * sp * cr - cy * sr))%R by ring end.
    rewrite E22, E23, Y1. ring [W].
  - match goal with |- _ = ?r => replace r with (- a * sp + b * (cp * sr) + c * (cp * cr))%R by ring end.
    rewrite HS, R1, R2. ring [W].
Qed.

(** The squared lengths used by roll and yaw are both 1 - sin(pitch)^2. *)
Lemma euler_rho : forall q, Rq_norm q = 1%R -> let s := (2 * (q0 q * q2 q - q1 q * q3 q))%R in
  ((2 * (q0 q * q1 q + q2 q * q3 q)) * (2 * (q0 q * q1 q + q2 q * q3 q)) +
   (1 - 2 * (q1 q * q1 q + q2 q * q2 q)) * (1 - 2 * (q1 q * q1 q + q2 q * q2 q)) = 1 - s * s)%R /\
  ((2 * (q0 q * q3 q + q1 q * q2 q)) * (2 * (q0 q * q3 q + q1 q * q2 q)) +
   (1 - 2 * (q2 q * q2 q + q3 q * q3 q)) * (1 - 2 * (q2 q * q2 q + q3 q * q3 q)) = 1 - s * s)%R.
Proof.
  intros [w x y z] N s. unfold s. revert N. rq. intros N. cbn [q0 q1 q2 q3].
  assert (W : (w * w = 1 - x * x - y * y - z * z)%R) by lra. split; ring [W].
Qed.

(** ** axis_angle *)

Lemma half_fmt : forall t, (bpow radix2 (-125) <= Rabs (val t))%R -> fmt (val t / 2).
Proof.
  intros t H. destruct (FLT_format_generic radix2 (-149) 24 (val t) (fmt_val t)) as [[m e] Hv Hm He]. cbn [Fnum Fexp] in *.
  assert (L : -148 <= e).
  { destruct (Z_le_gt_dec (-148) e) as [L|L]; [exact L|exfalso]. rewrite Hv in H. unfold F2R in H. cbn [Fnum Fexp] in H.
    rewrite Rabs_mult, (Rabs_pos_eq (bpow radix2 e)) in H by apply bpow_ge_0. rewrite <- abs_IZR in H.
    assert (M : (IZR (Z.abs m) <= bpow radix2 24 - 1)%R).
    { change (bpow radix2 24) with (IZR (2 ^ 24)). rewrite <- minus_IZR. apply IZR_le. change (radix2 ^ 24)%Z with (2 ^ 24)%Z in Hm. lia. }
    assert (Q : (bpow radix2 e <= bpow radix2 (-149))%R) by (apply bpow_le; lia).
    assert (W : (bpow radix2 (-125) = bpow radix2 24 * bpow radix2 (-149))%R) by (rewrite <- bpow_plus; reflexivity).
    pose proof (bpow_gt_0 radix2 e). pose proof (bpow_gt_0 radix2 (-149)). assert (0 <= IZR (Z.abs m))%R by (apply IZR_le; lia).
    assert (bpow radix2 24 = 16777216)%R by reflexivity. nra. }
  replace (val t / 2)%R with (IZR m * bpow radix2 (e - 1))%R.
  - apply fmt_scaled; [change (radix2 ^ 24)%Z with (2 ^ 24)%Z in Hm; lia|lia].
  - rewrite Hv. unfold F2R. cbn [Fnum Fexp]. unfold Zminus. rewrite bpow_plus. change (bpow radix2 (Z.opp 1)) with (/ 2)%R. lra.
Qed.

Lemma half_acc : forall {E : Env} t, fin t -> (Rabs (val t) <= 8192)%R -> let h := fmul t c_0_5 in
  fin h /\ (Rabs (val h) <= 4096)%R /\ (Rabs (val h - val t / 2) <= eta)%R.
Proof.
  intros E t F H h. destruct c_0_5_val as [Fc Vc].
  assert (B12 : (Rabs (val t * / 2) <= bpow radix2 12)%R).
  { change (bpow radix2 12) with 4096%R. apply Rabs_le_inv in H. apply Rabs_le. lra. }
  destruct (fmul_R t c_0_5 F Fc) as [A B].
  - rewrite Vc. apply (small_lt_128 12); [lia|exact B12].
  - fold h in A, B. split; [exact A|]. rewrite B, Vc. split.
    + apply (rnd_abs_le 12); [lia|exact B12].
    + destruct (Rle_or_lt (bpow radix2 (-125)) (Rabs (val t))) as [L|L].
      * change (val t * / 2)%R with (val t / 2)%R. rewrite rnd_fmt by (apply half_fmt; exact L).
        unfold Rminus. rewrite Rplus_opp_r, Rabs_R0. apply Rlt_le, eta_pos.
      * change (val t / 2)%R with (val t * / 2)%R. apply (rnd_err (-125)); [lia|]. rewrite Rabs_mult, (Rabs_pos_eq (/ 2)) by lra. pose proof (Rabs_pos (val t)). lra.
Qed.

Lemma axis_comp : forall {E : Env} v s S, fin v -> fin s -> (Rabs (val v) <= 1.001)%R -> (Rabs (val s) <= 1)%R -> (Rabs (val s - S) <= 0.0018)%R ->
  near 0.0019 (fmul v s) (val v * S) /\ (Rabs (val (fmul v s) - val v * val s) <= 0.0000001)%R.
Proof.
  intros E v s S Fv Fs Bv Bs D.
  destruct (tr_mul v (val v) 1.001 0 s (val s) 1 0 (tr_in v _ Fv Bv) (tr_in s _ Fs Bs)) as (Fm & _ & Dm); [small|].
  assert (Dm' : (Rabs (val (fmul v s) - val v * val s) <= 0.0000001)%R) by (eapply Rle_trans; [exact Dm|]; small).
  split; [|exact Dm']. split; [exact Fm|].
  replace (val (fmul v s) - val v * S)%R with ((val (fmul v s) - val v * val s) + val v * (val s - S))%R by ring.
  eapply Rle_trans; [apply Rabs_triang|]. rewrite Rabs_mult. pose proof (Rabs_pos (val v)). pose proof (Rabs_pos (val s - S)). nra.
Qed.

Lemma axis_angle_acc : forall {E : Env} {C} (into : C -> f32) v theta,
  let vx := into (v3x v) in let vy := into (v3y v) in let vz := into (v3z v) in let t := into theta in
  fin vx -> fin vy -> fin vz -> fin t -> (Rabs (val t) <= 8192)%R ->
  (Rabs (val vx * val vx + val vy * val vy + val vz * val vz - 1) <= 0.00001)%R ->
  let q := Q_axis_angle into v theta in
  near 0.0016 (q0 q) (cos (val t / 2)) /\ near 0.0019 (q1 q) (val vx * sin (val t / 2)) /\
  near 0.0019 (q2 q) (val vy * sin (val t / 2)) /\ near 0.0019 (q3 q) (val vz * sin (val t / 2)) /\
  (Rabs (rsumsq (q_list q) - 1) <= 0.0068)%R.
Proof.
  intros E C into v theta vx vy vz t Fx Fy Fz Ft Bt Hv q.
  destruct (half_acc t Ft Bt) as (Fh & Bh & Dh). set (h := fmul t c_0_5) in *.
  destruct (cos_acc h Fh ltac:(lra)) as [Fc Dc]. destruct (sin_acc h Fh ltac:(lra)) as [Fs Ds].
  destruct (cos_sin_bounded h Fh ltac:(lra)) as (_ & Bc & _ & Bs).
  pose proof (sin_cos_unit h Fh Bh) as U. rewrite sin_cos_pair in U. destruct U as (_ & _ & U).
  pose proof eta_tiny as ET.
  assert (Dc' : (Rabs (val (F32_cos h) - cos (val t / 2)) <= 0.0016)%R).
  { pose proof (cos_lip (val h) (val t / 2)) as L. replace (val (F32_cos h) - cos (val t / 2))%R with
      ((val (F32_cos h) - cos (val h)) + (cos (val h) - cos (val t / 2)))%R by ring.
    eapply Rle_trans; [apply Rabs_triang|]. lra. }
  assert (Ds' : (Rabs (val (F32_sin h) - sin (val t / 2)) <= 0.0018)%R).
  { pose proof (sin_lip (val h) (val t / 2)) as L. replace (val (F32_sin h) - sin (val t / 2))%R with
      ((val (F32_sin h) - sin (val h)) + (sin (val h) - sin (val t / 2)))%R by ring.
    eapply Rle_trans; [apply Rabs_triang|]. lra. }
  apply Rabs_le_inv in Hv as Hv'.
  pose proof (Rle_0_sqr (val vx)) as Qx. pose proof (Rle_0_sqr (val vy)) as Qy. pose proof (Rle_0_sqr (val vz)) as Qz. unfold Rsqr in *.
  assert (G : forall a : R, (a * a <= 1.00001)%R -> (Rabs a <= 1.001)%R) by (intros a Ha; apply Rabs_le; split; nra).
  destruct (axis_comp vx (F32_sin h) _ Fx Fs ltac:(apply G; lra) Bs Ds') as [Nx Px].
  destruct (axis_comp vy (F32_sin h) _ Fy Fs ltac:(apply G; lra) Bs Ds') as [Ny Py].
  destruct (axis_comp vz (F32_sin h) _ Fz Fs ltac:(apply G; lra) Bs Ds') as [Nz Pz].
  unfold q, Q_axis_angle. fold vx vy vz t h. unfold q_list. cbn [q0 q1 q2 q3].
  split; [split; assumption|]. split; [exact Nx|]. split; [exact Ny|]. split; [exact Nz|].
  unfold rsumsq. cbn [fold_right].
  assert (BX : (Rabs (val vx) <= 1.001)%R) by (apply G; lra). assert (BY : (Rabs (val vy) <= 1.001)%R) by (apply G; lra).
  assert (BZ : (Rabs (val vz) <= 1.001)%R) by (apply G; lra).
  revert U Bs Bc Px Py Pz. generalize (val (fmul vx (F32_sin h))) (val (fmul vy (F32_sin h))) (val (fmul vz (F32_sin h))).
  generalize (val (F32_sin h)) (val (F32_cos h)). clear - Hv' BX BY BZ.
  generalize dependent (val vx). generalize dependent (val vy). generalize dependent (val vz). intros z BZ y BY x Hv BX s c X Y Z U Bs Bc Px Py Pz.
  assert (S : forall a A : R, (Rabs a <= 1.001)%R -> (Rabs (A - a * s) <= 0.0000001)%R -> (Rabs (A * A - a * a * (s * s)) <= 0.000001)%R).
  { intros a A Ha HA. replace (A * A - a * a * (s * s))%R with ((A - a * s) * ((A - a * s) + 2 * (a * s)))%R by ring.
    rewrite Rabs_mult. assert (K : (Rabs ((A - a * s) + 2 * (a * s)) <= 3)%R).
    { eapply Rle_trans; [apply Rabs_triang|]. rewrite !Rabs_mult, (Rabs_pos_eq 2) by lra.
      pose proof (Rabs_pos a). pose proof (Rabs_pos s). nra. }
    pose proof (Rabs_pos (A - a * s)). pose proof (Rabs_pos ((A - a * s) + 2 * (a * s))). nra. }
  pose proof (S _ _ BX Px) as SX. pose proof (S _ _ BY Py) as SY. pose proof (S _ _ BZ Pz) as SZ. 
  assert (S2 : (0 <= s * s <= 1)%R) by (apply Rabs_le_inv in Bs; split; nra).
  apply Rabs_le_inv in SX, SY, SZ, U. 
  assert (W : (- 0.00001 <= (x * x + y * y + z * z - 1) * (s * s) <= 0.00001)%R) by (split; nra).
  apply Rabs_le. lra.
Qed.
