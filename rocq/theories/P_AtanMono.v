(** * Proofs for C125: atan, asin and acos keep the order up to a few roundings *)

From Coq Require Import ZArith Reals Bool List Lia Lra Psatz.
From Flocq Require Import Core IEEE754.Binary IEEE754.Bits.
From Verif Require Import Base Spec Float F32Lemmas BitLemmas P_Trunc P_Floor Literals ErrLemmas P_RoundEdge NanLemmas P_Roots P_InvSqrt P_SumSq P_VecF32 RealBounds RealBounds2 P_Powf P_Quat P_Trig P_Atan P_Asin P_Sign P_Mono P_Scale P_TrigMono.
Open Scope Z_scope.

(** ** The arctangent of t >= 0 as a real function with explicit roundings *)

Definition hp : R := (13176795 / 8388608)%R.
Definition aB (t : R) : R := rnd (cB * t).
Definition aN (t : R) : R := rnd (aB t + rnd (t * t)).
Definition aS (t : R) : R := rnd (1 + aB t).
Definition aD (t : R) : R := rnd (aS t + aN t).
Definition AT (t : R) : R := rnd (hp * rnd (aN t / aD t)).

Lemma atan_real : forall {E : Env} x, fin x -> (Rabs (val x) < bpow radix2 64)%R ->
  fin (F32_atan x) /\ val (F32_atan x) = ((if sign_bit x then -1 else 1) * AT (Rabs (val x)))%R.
Proof.
  intros E x Fx H. destruct (atan_acc x Fx H) as (Fa & _). split; [exact Fa|].
  destruct (quadf_one x Fx H) as (Fq & Sq & Rq & _). destruct (atan_parts x Fx H) as (Fb & Fc & Pb & Pc & _ & _ & Fn & Fs & Fd).
  destruct c_FRAC_PI_2_val as [Fh Vh]. destruct c_B_val as [FB VB]. destruct one_val as [F1 V1].
  assert (Fm : fin (fmul c_B x)) by (unfold fin in *; rewrite abs_fin in Fb; exact Fb).
  assert (Vb : val (F32_abs (fmul c_B x)) = aB (Rabs (val x))).
  { rewrite abs_val, (fmul_fin_val _ _ FB Fx Fm), VB. unfold aB. fold cB. destruct (Rle_or_lt 0 (val x)) as [P|P].
    - rewrite (Rabs_pos_eq (val x)) by exact P. apply Rabs_pos_eq, rnd_nonneg. unfold cB. lra.
    - rewrite (Rabs_left (val x)) by exact P. replace (cB * - val x)%R with (- (cB * val x))%R by ring. rewrite rnd_opp. apply Rabs_left1.
      pose proof (rnd_nonneg (- (cB * val x)) ltac:(unfold cB; lra)) as Q. rewrite rnd_opp in Q. lra. }
  assert (Vc : val (fmul x x) = rnd (Rabs (val x) * Rabs (val x))).
  { rewrite (fmul_fin_val _ _ Fx Fx Fc). f_equal. rewrite <- Rabs_mult. symmetry. apply Rabs_pos_eq, Rle_0_sqr. }
  assert (Vn : val (fadd (F32_abs (fmul c_B x)) (fmul x x)) = aN (Rabs (val x))) by (rewrite (fadd_fin_val _ _ Fb Fc Fn), Vb, Vc; reflexivity).
  assert (Vs : val (fadd F32_ONE (F32_abs (fmul c_B x))) = aS (Rabs (val x))) by (rewrite (fadd_fin_val _ _ F1 Fb Fs), Vb, V1; reflexivity).
  assert (Vd : val (fadd (fadd F32_ONE (F32_abs (fmul c_B x))) (fadd (F32_abs (fmul c_B x)) (fmul x x))) = aD (Rabs (val x))) by (rewrite (fadd_fin_val _ _ Fs Fn Fd), Vs, Vn; reflexivity).
  assert (N0 : (0 <= aN (Rabs (val x)))%R) by (rewrite <- Vn, (fadd_fin_val _ _ Fb Fc Fn); apply rnd_nonneg; lra).
  assert (S1 : (1 <= aS (Rabs (val x)))%R).
  { unfold aS. rewrite <- (rnd_fmt 1) at 1 by exact (fmt_bpow 0 ltac:(lia)). apply rnd_le. rewrite <- Vb. lra. }
  assert (D1 : (1 <= aD (Rabs (val x)))%R).
  { unfold aD. rewrite <- (rnd_fmt 1) at 1 by exact (fmt_bpow 0 ltac:(lia)). apply rnd_le. lra. }
  assert (ND : (aN (Rabs (val x)) <= aD (Rabs (val x)))%R).
  { unfold aD. rewrite <- (rnd_fmt (aN (Rabs (val x)))) at 1 by apply fmt_rnd. apply rnd_le. lra. }
  assert (Vq : val (quadf F32_ONE (F32_abs (fmul c_B x)) (fmul x x)) = rnd (aN (Rabs (val x)) / aD (Rabs (val x)))).
  { unfold quadf. destruct (fdiv_R _ _ Fn Fd) as [_ V]; [rewrite Vd; lra| |rewrite V, Vn, Vd; reflexivity].
    rewrite Vn, Vd. apply (small_lt_128 0); [lia|]. change (bpow radix2 0) with 1%R. set (a := aN _) in *. set (d := aD _) in *.
    assert (0 <= a / d <= 1)%R. { split; [apply Rmult_le_pos; [exact N0|apply Rlt_le, Rinv_0_lt_compat; lra]|]. apply Rmult_le_reg_r with d; [lra|]. unfold Rdiv. rewrite Rmult_assoc, Rinv_l by lra. lra. }
    apply Rabs_le. lra. }
  unfold F32_atan in *. rewrite atan_norm_eq, Sq, orb_false_r in *. remember (quadf F32_ONE (F32_abs (fmul c_B x)) (fmul x x)) as q eqn:HQ. clear HQ.
  rewrite (fmul_fin_val _ _ Fh (mul_fin_r _ _ Fa) Fa), with_sign_val, (Rabs_pos_eq (val q)), Vh, Vq by lra. fold hp. unfold AT.
  destruct (sign_bit x); [|rewrite !Rmult_1_l; reflexivity].
  replace (hp * (-1 * rnd (aN (Rabs (val x)) / aD (Rabs (val x)))))%R with (- (hp * rnd (aN (Rabs (val x)) / aD (Rabs (val x)))))%R by ring. rewrite rnd_opp. ring.
Qed.

(** ** Away from zero: a relative error *)

Lemma rel_iv : forall r, (bpow radix2 (-126) <= r)%R -> (r * (1 - u24) <= rnd r <= r * (1 + u24))%R.
Proof.
  intros r H. pose proof (bpow_gt_0 radix2 (-126)). pose proof (rnd_rel r ltac:(rewrite Rabs_pos_eq by lra; exact H)) as Q. rewrite u24_eq, (Rabs_pos_eq r) in Q by lra. apply Rabs_le_inv in Q. lra.
Qed.

Definition QQ (t : R) : R := ((cB * t + t * t) / (1 + 2 * cB * t + t * t))%R.

Lemma QQ_mono : forall t t', (0 <= t <= t')%R -> (QQ t <= QQ t')%R.
Proof.
  intros t t' [H H']. unfold QQ. assert (K : (0 < cB < 1)%R) by (unfold cB; lra).
  assert (P1 : (0 < 1 + 2 * cB * t + t * t)%R) by nra. assert (P2 : (0 < 1 + 2 * cB * t' + t' * t')%R) by nra.
  apply Rmult_le_reg_r with (1 + 2 * cB * t + t * t)%R; [exact P1|]. apply Rmult_le_reg_r with (1 + 2 * cB * t' + t' * t')%R; [exact P2|].
  replace ((cB * t + t * t) / (1 + 2 * cB * t + t * t) * (1 + 2 * cB * t + t * t) * (1 + 2 * cB * t' + t' * t'))%R with ((cB * t + t * t) * (1 + 2 * cB * t' + t' * t'))%R by (field; lra).
  replace ((cB * t' + t' * t') / (1 + 2 * cB * t' + t' * t') * (1 + 2 * cB * t + t * t) * (1 + 2 * cB * t' + t' * t'))%R with ((cB * t' + t' * t') * (1 + 2 * cB * t + t * t))%R by (field; lra).
  assert (I : ((cB * t' + t' * t') * (1 + 2 * cB * t + t * t) - (cB * t + t * t) * (1 + 2 * cB * t' + t' * t') = (t' - t) * (cB + (t + t') + cB * t * t'))%R) by ring.
  assert (0 <= (t' - t) * (cB + (t + t') + cB * t * t'))%R.
  { apply Rmult_le_pos; [lra|]. assert (0 <= cB * t * t')%R by (apply Rmult_le_pos; [apply Rmult_le_pos; lra|lra]). lra. }
  lra.
Qed.

Lemma QQ_low : forall t, (bpow radix2 (-30) <= t)%R -> (bpow radix2 (-33) <= QQ t)%R.
Proof.
  intros t H. pose proof (bpow_gt_0 radix2 (-30)) as P. apply Rle_trans with (QQ (bpow radix2 (-30))); [|apply QQ_mono; lra].
  change (bpow radix2 (-30)) with (/ 1073741824)%R. change (bpow radix2 (-33)) with (/ 8589934592)%R. unfold QQ, cB.
  apply Rmult_le_reg_r with (1 + 2 * (10003029 / 16777216) * / 1073741824 + / 1073741824 * / 1073741824)%R; [lra|]. unfold Rdiv at 2. rewrite (Rmult_assoc _ (/ _)), Rinv_l by lra. lra.
Qed.

Lemma AT_rel : forall t, (bpow radix2 (-30) <= t)%R -> (hp * QQ t * (1 - 7.2 * u24) <= AT t <= hp * QQ t * (1 + 7.2 * u24))%R.
Proof.
  intros t H. pose proof (QQ_low t H) as QL. assert (p126 : (bpow radix2 (-126) <= bpow radix2 (-61))%R) by (apply bpow_le; lia).
  change (bpow radix2 (-30)) with (/ 1073741824)%R in H. change (bpow radix2 (-33)) with (/ 8589934592)%R in QL. change (bpow radix2 (-61)) with (/ 2305843009213693952)%R in p126.
  assert (K : cB = (10003029 / 16777216)%R) by reflexivity. assert (T2 : (/ 1073741824 * / 1073741824 <= t * t)%R) by (apply Rmult_le_compat; lra).
  pose proof (rel_iv (cB * t) ltac:(rewrite K; lra)) as E1. fold (aB t) in E1. pose proof (rel_iv (t * t) ltac:(lra)) as E2.
  set (tt := (t * t)%R) in *. assert (U : u24 = (/ 16777216)%R) by reflexivity.
  assert (b0 : (0 < aB t)%R) by (rewrite U, K in *; lra). assert (c0 : (0 < rnd tt)%R) by (rewrite U in *; lra).
  pose proof (rel_iv (aB t + rnd tt) ltac:(rewrite U, K in *; lra)) as E3. change (rnd (aB t + rnd tt)) with (aN t) in E3.
  pose proof (rel_iv (1 + aB t) ltac:(lra)) as E4. fold (aS t) in E4.
  pose proof (rel_iv (aS t + aN t) ltac:(rewrite U in *; lra)) as E5. fold (aD t) in E5.
  set (N := (cB * t + tt)%R). set (D := (1 + 2 * cB * t + tt)%R).
  assert (EN : (N * (1 - 2 * u24) <= aN t <= N * (1 + 2.01 * u24))%R) by (unfold N; rewrite U, K in *; lra).
  assert (ED : (D * (1 - 3 * u24) <= aD t <= D * (1 + 3.01 * u24))%R) by (unfold D; rewrite U, K in *; lra).
  assert (D0 : (0 < D)%R) by (unfold D; rewrite K; lra). assert (N0 : (0 < N)%R) by (unfold N; rewrite K; lra).
  assert (Q : (QQ t * D = N)%R) by (unfold QQ; fold tt; fold N; fold D; field; lra).
  set (q := QQ t) in *. assert (d0 : (0 < aD t)%R) by (rewrite U in *; lra).
  assert (M1 : (q * (D * (1 - 3 * u24)) <= q * aD t <= q * (D * (1 + 3.01 * u24)))%R) by (split; apply Rmult_le_compat_l; lra).
  assert (R1 : (q * (1 - 5.1 * u24) <= aN t / aD t <= q * (1 + 5.1 * u24))%R).
  { split; apply Rmult_le_reg_r with (aD t); try exact d0; unfold Rdiv; rewrite (Rmult_assoc (aN t)), Rinv_l, Rmult_1_r by lra.
    - replace (q * (1 - 5.1 * u24) * aD t)%R with (q * aD t * (1 - 5.1 * u24))%R by ring. replace (q * (D * (1 + 3.01 * u24)))%R with (N * (1 + 3.01 * u24))%R in M1 by (rewrite <- Q; ring). rewrite U in *. lra.
    - replace (q * (1 + 5.1 * u24) * aD t)%R with (q * aD t * (1 + 5.1 * u24))%R by ring. replace (q * (D * (1 - 3 * u24)))%R with (N * (1 - 3 * u24))%R in M1 by (rewrite <- Q; ring). rewrite U in *. lra. }
  pose proof (rel_iv (aN t / aD t) ltac:(rewrite U in *; lra)) as E6.
  assert (hpv : hp = (13176795 / 8388608)%R) by reflexivity.
  pose proof (rel_iv (hp * rnd (aN t / aD t)) ltac:(rewrite hpv, U in *; lra)) as E7. fold (AT t) in E7. rewrite hpv, U in *. lra.
Qed.

(** ** Near zero: the denominator is one *)

Lemma rnd_one_above : forall r, (1 <= r <= 1 + / 33554432)%R -> rnd r = 1%R.
Proof.
  intros r H. assert (F1 : fmt 1) by exact (fmt_bpow 0 ltac:(lia)). assert (L : (1 <= rnd r)%R) by (rewrite <- (rnd_fmt 1 F1) at 1; apply rnd_le; lra).
  pose proof (rnd_err 1 r ltac:(lia) ltac:(rewrite Rabs_pos_eq by lra; change (bpow radix2 1) with 2%R; lra)) as Er. change (bpow radix2 (1 - 25)) with (/ 16777216)%R in Er. apply Rabs_le_inv in Er.
  destruct (Rle_lt_or_eq_dec _ _ L) as [A|A]; [|symmetry; exact A].
  pose proof (gap_above 0 1 (rnd r) F1 (fmt_rnd r) ltac:(lia) ltac:(change (bpow radix2 0) with 1%R; lra) A) as G. change (bpow radix2 (0 - 23)) with (/ 8388608)%R in G. lra.
Qed.

Lemma AT_tiny : forall t, (0 <= t <= bpow radix2 (-30))%R -> AT t = rnd (hp * aN t) /\ (0 <= aN t)%R.
Proof.
  intros t H. assert (p30 : bpow radix2 (-30) = (/ 1073741824)%R) by reflexivity. assert (K : cB = (10003029 / 16777216)%R) by reflexivity.
  assert (B : (0 <= aB t <= bpow radix2 (-30))%R).
  { split; [apply rnd_nonneg; rewrite K; lra|]. rewrite <- (rnd_fmt (bpow radix2 (-30))) by (apply fmt_bpow; lia). apply rnd_le. rewrite K. lra. }
  assert (C : (0 <= rnd (t * t) <= bpow radix2 (-30))%R).
  { split; [apply rnd_nonneg; nra|]. rewrite <- (rnd_fmt (bpow radix2 (-30))) by (apply fmt_bpow; lia). apply rnd_le. rewrite p30 in *. nra. }
  assert (N : (0 <= aN t <= bpow radix2 (-29))%R).
  { split; [apply rnd_nonneg; lra|]. rewrite <- (rnd_fmt (bpow radix2 (-29))) by (apply fmt_bpow; lia). apply rnd_le. change (bpow radix2 (-29)) with (/ 536870912)%R. rewrite p30 in *. lra. }
  change (bpow radix2 (-29)) with (/ 536870912)%R in N. rewrite p30 in *.
  assert (S : aS t = 1%R) by (apply rnd_one_above; lra). assert (D : aD t = 1%R) by (unfold aD; rewrite S; apply rnd_one_above; lra).
  split; [|lra]. unfold AT. rewrite D. unfold Rdiv. rewrite Rinv_1, Rmult_1_r. rewrite (rnd_fmt (aN t)) by apply fmt_rnd. reflexivity.
Qed.

Lemma aN_mono : forall t t', (0 <= t <= t')%R -> (aN t <= aN t')%R.
Proof.
  intros t t' H. apply rnd_le. apply Rplus_le_compat; apply rnd_le; [unfold cB; lra|nra].
Qed.

Lemma AT_tiny_mono : forall t t', (0 <= t <= t')%R -> (t' <= bpow radix2 (-30))%R -> (AT t <= AT t')%R.
Proof.
  intros t t' H H'. destruct (AT_tiny t ltac:(lra)) as [-> _]. destruct (AT_tiny t' ltac:(lra)) as [-> _]. apply rnd_le. pose proof (aN_mono t t' H). unfold hp. lra.
Qed.

Lemma AT_nonneg : forall t, (0 <= t)%R -> (0 <= AT t)%R.
Proof.
  intros t H. destruct (Rle_or_lt t (bpow radix2 (-30))) as [L|L].
  - destruct (AT_tiny t ltac:(lra)) as [-> N]. apply rnd_nonneg. unfold hp. lra.
  - pose proof (AT_rel t ltac:(lra)) as R. pose proof (QQ_low t ltac:(lra)) as Q. pose proof (bpow_gt_0 radix2 (-33)). unfold hp, u24 in *. lra.
Qed.

Lemma AT_mono : forall t t', (0 <= t <= t')%R -> (AT t <= AT t' * (1 + 15 * u24))%R.
Proof.
  assert (Big : forall t t', (bpow radix2 (-30) <= t)%R -> (t <= t')%R -> (AT t <= AT t' * (1 + 15 * u24))%R).
  { intros t t' H H'. pose proof (bpow_gt_0 radix2 (-30)) as P. pose proof (AT_rel t H) as [_ A]. pose proof (AT_rel t' ltac:(lra)) as [B _]. pose proof (QQ_mono t t' ltac:(lra)) as M.
    pose proof (QQ_low t H) as L. pose proof (bpow_gt_0 radix2 (-33)) as P'. set (q := QQ t) in *. set (q' := QQ t') in *. unfold hp, u24 in *. lra. }
  intros t t' H. pose proof (bpow_gt_0 radix2 (-30)) as P. destruct (Rle_or_lt (bpow radix2 (-30)) t) as [A|A].
  - apply Big; lra.
  - destruct (Rle_or_lt (bpow radix2 (-30)) t') as [B|B].
    + eapply Rle_trans; [apply (AT_tiny_mono t (bpow radix2 (-30))); lra|]. apply Big; lra.
    + pose proof (AT_tiny_mono t t' H ltac:(lra)). pose proof (AT_nonneg t' ltac:(lra)). unfold u24. lra.
Qed.

(** ** The arctangent *)

Lemma AT_0 : AT 0 = 0%R.
Proof.
  assert (Z : rnd 0 = 0%R) by (apply rnd_fmt, generic_format_0). destruct (AT_tiny 0 ltac:(split; [lra|apply bpow_ge_0])) as [-> _].
  unfold aN, aB. rewrite !Rmult_0_r, !Z, Rplus_0_r, Z, Rmult_0_r, Z. reflexivity.
Qed.

Lemma atan_order : forall {E : Env} x y, fin x -> fin y -> (Rabs (val x) < bpow radix2 64)%R -> (Rabs (val y) < bpow radix2 64)%R -> (val x <= val y)%R ->
  fin (F32_atan x) /\ fin (F32_atan y) /\
  (val (F32_atan x) <= val (F32_atan y) + 15 / 16777216 * Rmax (Rabs (val (F32_atan x))) (Rabs (val (F32_atan y))))%R.
Proof.
  intros E x y Fx Fy Bx By H. destruct (atan_real x Fx Bx) as [Ax Vx]. destruct (atan_real y Fy By) as [Ay Vy].
  refine (conj Ax (conj Ay _)). rewrite Vx, Vy. pose proof (sign_val x Fx) as Sx. pose proof (sign_val y Fy) as Sy.
  pose proof (AT_nonneg _ (Rabs_pos (val x))) as Nx. pose proof (AT_nonneg _ (Rabs_pos (val y))) as Ny.
  assert (M : forall a b c, (Rabs a = c)%R -> (15 / 16777216 * c <= 15 / 16777216 * Rmax (Rabs a) (Rabs b))%R) by (intros a b c <-; apply Rmult_le_compat_l; [lra|apply Rmax_l]).
  assert (M' : forall a b c, (Rabs b = c)%R -> (15 / 16777216 * c <= 15 / 16777216 * Rmax (Rabs a) (Rabs b))%R) by (intros a b c <-; apply Rmult_le_compat_l; [lra|apply Rmax_r]).
  destruct (sign_bit x); destruct (sign_bit y).
  - assert (MM : (AT (Rabs (val y)) <= AT (Rabs (val x)) * (1 + 15 * u24))%R) by (apply AT_mono; split; [apply Rabs_pos|rewrite !Rabs_left1 by lra; lra]).
    pose proof (M (-1 * AT (Rabs (val x)))%R (-1 * AT (Rabs (val y)))%R (AT (Rabs (val x))) ltac:(rewrite Rabs_left1; lra)) as Q. unfold u24 in MM. lra.
  - pose proof (M' (-1 * AT (Rabs (val x)))%R (1 * AT (Rabs (val y)))%R (AT (Rabs (val y))) ltac:(rewrite Rabs_pos_eq; lra)) as Q. lra.
  - assert (Zx : val x = 0%R) by lra. assert (Zy : val y = 0%R) by lra. rewrite Zx, Zy, Rabs_R0, AT_0, !Rmult_0_r, Rabs_R0. unfold Rmax. destruct (Rle_dec 0 0); lra.
  - assert (MM : (AT (Rabs (val x)) <= AT (Rabs (val y)) * (1 + 15 * u24))%R) by (apply AT_mono; split; [apply Rabs_pos|rewrite !Rabs_pos_eq by lra; lra]).
    pose proof (M' (1 * AT (Rabs (val x)))%R (1 * AT (Rabs (val y)))%R (AT (Rabs (val y))) ltac:(rewrite Rabs_pos_eq; lra)) as Q. unfold u24 in MM. lra.
Qed.

(** ** 1 - x^2 *)

Lemma cosq_val : forall {E : Env} x, fin x -> (Rabs (val x) <= 1)%R -> val (cosq x) = rnd (1 - rnd (Rabs (val x) * Rabs (val x))).
Proof.
  intros E x Fx H. destruct one_val as [F1 V1]. set (X := Rabs (val x)) in *. pose proof (Rabs_pos (val x)) as P. fold X in P.
  assert (XX : (val x * val x = X * X)%R) by (unfold X; rewrite <- Rabs_mult; symmetry; apply Rabs_pos_eq, Rle_0_sqr).
  assert (B : (Rabs (val x * val x) <= bpow radix2 0)%R) by (rewrite XX, Rabs_pos_eq by nra; change (bpow radix2 0) with 1%R; nra).
  destruct (fmul_R x x Fx Fx (small_lt_128 0 _ ltac:(lia) B)) as [Fm Vm]. pose proof (rnd_abs_le 0 _ ltac:(lia) B) as B'. rewrite <- Vm in B'. apply Rabs_le_inv in B'. change (bpow radix2 0) with 1%R in B'.
  unfold cosq. destruct (fsub_R F32_ONE (fmul x x) F1 Fm) as [_ V].
  - apply (small_lt_128 1); [lia|]. rewrite V1. change (bpow radix2 1) with 2%R. apply Rabs_le. lra.
  - rewrite V, V1, Vm, XX. reflexivity.
Qed.

Lemma cosq_order : forall {E : Env} x y, fin x -> fin y -> (Rabs (val x) <= Rabs (val y) <= 1)%R -> fle (cosq y) (cosq x) = true.
Proof.
  intros E x y Fx Fy H. destruct (cosq_spec x Fx ltac:(lra)) as (Fc & _). destruct (cosq_spec y Fy ltac:(lra)) as (Fd & _).
  rewrite fle_R by assumption. apply Rle_bool_true. rewrite (cosq_val x Fx) by lra. rewrite (cosq_val y Fy) by lra. apply rnd_le. pose proof (Rabs_pos (val x)).
  assert (rnd (Rabs (val x) * Rabs (val x)) <= rnd (Rabs (val y) * Rabs (val y)))%R by (apply rnd_le; apply Rmult_le_compat; lra). lra.
Qed.

(** ** The arcsine *)

Lemma asin_arg : forall {E : Env} x, fin x -> (Rabs (val x) <= 1)%R -> exists i, F32_invsqrt (cosq x) = Ok i /\ fin i /\ (0 < val i)%R /\
  fin (fmul x i) /\ val (fmul x i) = rnd (val x * val i) /\ (Rabs (val (fmul x i)) < bpow radix2 64)%R.
Proof.
  intros E x Fx H. destruct (cosq_spec x Fx H) as (Fc & Sc & Bc & _).
  assert (L : fle (f32_zero false) (cosq x) = true) by (rewrite fle_R by (exact Fc || reflexivity); apply Rle_bool_true; exact (proj1 Bc)).
  destruct (invsqrt_antitone (f32_zero false) (cosq x) eq_refl ltac:(apply fin_not_nan; exact Fc) eq_refl Sc L) as (a & i & Ia & Ii & Fa & Fi & Bi).
  assert (I0 : F32_invsqrt (f32_zero false) = Ok (from_bits 0x5F375A86)) by (apply (invsqrt_bits (f32_zero false)); vm_compute; discriminate).
  assert (Va : val a = (IZR 12016262 * bpow radix2 40)%R).
  { rewrite I0 in Ia. apply Ok_inj in Ia. rewrite <- Ia. lit 0x5F375A86. reflexivity. }
  exists i. split; [exact Ii|]. split; [exact Fi|]. split; [lra|].
  assert (AB : (Rabs (val x * val i) <= val a)%R) by (rewrite Rabs_mult, (Rabs_pos_eq (val i)) by lra; pose proof (Rabs_pos (val x)); nra).
  assert (P63 : (val a < bpow radix2 64)%R) by (rewrite Va; change 64 with (24 + 40); rewrite bpow_plus; apply Rmult_lt_compat_r; [apply bpow_gt_0|change (bpow radix2 24) with 16777216%R; lra]).
  assert (AR : (Rabs (rnd (val x * val i)) <= val a)%R).
  { apply Rabs_le_inv in AB. apply Rabs_le. split.
    - rewrite <- (rnd_fmt (- val a)) by (apply fmt_opp, fmt_val). apply rnd_le. lra.
    - rewrite <- (rnd_fmt (val a)) by apply fmt_val. apply rnd_le. lra. }
  destruct (fmul_R x i Fx Fi) as [Fm Vm]; [eapply Rle_lt_trans; [exact AR|]; eapply Rlt_trans; [exact P63|apply bpow_lt; lia]|].
  split; [exact Fm|]. split; [exact Vm|]. rewrite Vm. lra.
Qed.

Lemma asin_order : forall {E : Env} x y, fin x -> fin y -> (-1 <= val x)%R -> (val x <= val y)%R -> (val y <= 1)%R ->
  exists r s, F32_asin x = Ok r /\ F32_asin y = Ok s /\ fin r /\ fin s /\ (val r <= val s + 15 / 16777216 * Rmax (Rabs (val r)) (Rabs (val s)))%R.
Proof.
  intros E x y Fx Fy L H U. assert (Bx : (Rabs (val x) <= 1)%R) by (apply Rabs_le; lra). assert (By : (Rabs (val y) <= 1)%R) by (apply Rabs_le; lra).
  destruct (asin_arg x Fx Bx) as (i & Ii & Fi & Pi & Fm & Vm & Bm). destruct (asin_arg y Fy By) as (j & Ij & Fj & Pj & Fn & Vn & Bn).
  assert (M : (val (fmul x i) <= val (fmul y j))%R).
  { rewrite Vm, Vn. apply rnd_le.
    destruct (cosq_spec x Fx Bx) as (Fc & Sc & _). destruct (cosq_spec y Fy By) as (Fd & Sd & _). pose proof (fin_not_nan _ Fc) as Nc. pose proof (fin_not_nan _ Fd) as Nd.
    destruct (Rle_or_lt 0 (val x)) as [P|P].
    - assert (O : fle (cosq y) (cosq x) = true) by (apply cosq_order; trivial; rewrite !Rabs_pos_eq by lra; lra).
      destruct (invsqrt_antitone _ _ Nd Nc Sd Sc O) as (a & b & Ia & Ib & _ & _ & V). rewrite Ij in Ia. rewrite Ii in Ib. apply Ok_inj in Ia. apply Ok_inj in Ib. subst a b.
      apply Rmult_le_compat; lra.
    - destruct (Rle_or_lt 0 (val y)) as [Q|Q]; [nra|].
      assert (O : fle (cosq x) (cosq y) = true) by (apply cosq_order; trivial; rewrite !Rabs_left by lra; lra).
      destruct (invsqrt_antitone _ _ Nc Nd Sc Sd O) as (a & b & Ia & Ib & _ & _ & V). rewrite Ii in Ia. rewrite Ij in Ib. apply Ok_inj in Ia. apply Ok_inj in Ib. subst a b.
      nra. }
  destruct (atan_order _ _ Fm Fn Bm Bn M) as (Fr & Fs & O).
  exists (F32_atan (fmul x i)), (F32_atan (fmul y j)). unfold F32_asin. fold (cosq x) (cosq y). rewrite Ii, Ij. exact (conj eq_refl (conj eq_refl (conj Fr (conj Fs O)))).
Qed.

(** ** The arccosine *)

Lemma atan_hp : forall {E : Env} m, fin m -> (Rabs (val m) < bpow radix2 64)%R -> (AT (Rabs (val m)) <= hp)%R.
Proof.
  intros E m Fm H. destruct (atan_acc m Fm H) as (_ & _ & B & _). destruct (atan_real m Fm H) as [_ V]. rewrite V in B. rewrite (proj2 c_FRAC_PI_2_val) in B. fold hp in B.
  apply Rabs_le_inv in B. destruct (sign_bit m); lra.
Qed.

Lemma acos_arg : forall {E : Env} x, fin x -> (bpow radix2 (-64) < Rabs (val x) <= 1)%R -> exists s, F32_sqrt (cosq x) = Ok s /\ fin s /\ (0 < val s)%R /\
  fin (fdiv s x) /\ val (fdiv s x) = rnd (val s / val x) /\ (Rabs (val (fdiv s x)) < bpow radix2 64)%R.
Proof.
  intros E x Fx H. destruct (acos_core x Fx H) as (s & Hs & Fm & Bm & _ & _). destruct (cosq_spec x Fx ltac:(lra)) as (Fc & Sc & Bc & _).
  assert (L : fle (cosq x) (cosq x) = true) by (rewrite fle_R by assumption; apply Rle_bool_true; lra).
  destruct (sqrt_monotone _ _ (fin_not_nan _ Fc) (fin_not_nan _ Fc) Sc Sc L) as (a & b & Ia & _ & Fa & _ & Va). rewrite Hs in Ia. apply Ok_inj in Ia. subst a.
  exists s. split; [exact Hs|]. split; [exact Fa|]. split; [lra|]. split; [exact Fm|]. split; [|exact Bm].
  assert (N : val x <> 0%R) by (intros Z; rewrite Z, Rabs_R0 in H; pose proof (bpow_gt_0 radix2 (-64)); lra).
  destruct (Rlt_or_le (Rabs (rnd (val s / val x))) (bpow radix2 128)) as [O|O]; [exact (proj2 (fdiv_R s x Fa Fx N O))|].
  pose proof (fdiv_over s x Fa Fx N O) as W. unfold fin in Fm. rewrite W in Fm. discriminate.
Qed.

Lemma acos_eval : forall {E : Env} x, fin x -> (Rabs (val x) <= 1)%R -> (val x = 0 \/ bpow radix2 (-64) < Rabs (val x))%R ->
  exists r, F32_acos x = Ok r /\ fin r /\
  ((val x = 0 /\ val r = hp)%R \/
   exists s, F32_sqrt (cosq x) = Ok s /\ fin s /\ (0 < val s)%R /\
     let m := Rabs (rnd (val s / val x)) in (0 <= AT m <= hp)%R /\
     ((0 < val x /\ val r = AT m)%R \/ (val x < 0 /\ val r = rnd (2 * hp - AT m))%R)).
Proof.
  intros E x Fx H HL. destruct zero_val as [FZ VZ]. destruct halfpi_val as [Fh Vh]. destruct c_PI_val as [FP VP].
  unfold F32_acos, fgt. rewrite (flt_R F32_ZERO x FZ Fx), (feq_R x F32_ZERO Fx FZ), VZ.
  destruct HL as [Z|HL].
  - rewrite Z. rewrite Rlt_bool_false, Req_bool_true by lra. exists (fdiv c_PI c_2). split; [reflexivity|]. split; [exact Fh|]. left. split; [reflexivity|exact Vh].
  - destruct (acos_arg x Fx ltac:(lra)) as (s & Hs & Fs & Ps & Fm & Vm & Bm). fold (cosq x). rewrite Hs. unfold bind.
    assert (N : val x <> 0%R) by (intros Z; rewrite Z, Rabs_R0 in HL; pose proof (bpow_gt_0 radix2 (-64)); lra).
    destruct (atan_real _ Fm Bm) as [Fa Va]. pose proof (atan_hp _ Fm Bm) as HH. pose proof (AT_nonneg _ (Rabs_pos (val (fdiv s x)))) as H0. pose proof (sign_val _ Fm) as SV.
    rewrite Req_bool_false by exact N. destruct (Rlt_bool_spec 0 (val x)) as [P|P].
    + exists (F32_atan (fdiv s x)). split; [reflexivity|]. split; [exact Fa|]. right. exists s. rewrite Vm in *. refine (conj eq_refl (conj Fs (conj Ps (conj (conj H0 HH) (or_introl (conj P _)))))).
      destruct (sign_bit (fdiv s x)); [|rewrite Va; ring].
      assert (Q : (0 <= rnd (val s / val x))%R) by (apply rnd_nonneg; apply Rlt_le, Rmult_lt_0_compat; [exact Ps|apply Rinv_0_lt_compat; exact P]).
      assert (Z : rnd (val s / val x) = 0%R) by lra. rewrite Va, Z, Rabs_R0, AT_0. ring.
    + assert (P' : (val x < 0)%R) by lra.
      assert (Va' : val (F32_atan (fdiv s x)) = (- AT (Rabs (rnd (val s / val x))))%R).
      { rewrite Vm in *. destruct (sign_bit (fdiv s x)); [rewrite Va; ring|].
        assert (Q : (rnd (val s / val x) <= 0)%R).
        { replace (val s / val x)%R with (- (val s / - val x))%R by (field; lra). rewrite rnd_opp. pose proof (rnd_nonneg (val s / - val x) ltac:(apply Rlt_le, Rmult_lt_0_compat; [exact Ps|apply Rinv_0_lt_compat; lra])). lra. }
        assert (Z : rnd (val s / val x) = 0%R) by lra. rewrite Va, Z, Rabs_R0, AT_0. ring. }
      rewrite Vm in HH, H0.
      assert (VP' : val c_PI = (2 * hp)%R) by (rewrite VP; unfold hp; lra).
      destruct (fadd_R (F32_atan (fdiv s x)) c_PI Fa FP) as [Fr Vr].
      { apply (small_lt_128 3); [lia|]. rewrite Va', VP'. change (bpow radix2 3) with 8%R. apply Rabs_le. unfold hp in *. lra. }
      exists (fadd (F32_atan (fdiv s x)) c_PI). split; [reflexivity|]. split; [exact Fr|]. right. exists s.
      refine (conj eq_refl (conj Fs (conj Ps (conj (conj H0 HH) (or_intror (conj P' _)))))). rewrite Vr, Va', VP'. f_equal. ring.
Qed.

Lemma acos_order : forall {E : Env} x y, fin x -> fin y -> (-1 <= val x)%R -> (val x <= val y)%R -> (val y <= 1)%R ->
  (val x = 0 \/ bpow radix2 (-64) < Rabs (val x))%R -> (val y = 0 \/ bpow radix2 (-64) < Rabs (val y))%R ->
  exists r s, F32_acos x = Ok r /\ F32_acos y = Ok s /\ fin r /\ fin s /\ (val s <= val r + 28 / 16777216)%R.
Proof.
  intros E x y Fx Fy L H U HX HY. assert (Bx : (Rabs (val x) <= 1)%R) by (apply Rabs_le; lra). assert (By : (Rabs (val y) <= 1)%R) by (apply Rabs_le; lra).
  destruct (acos_eval x Fx Bx HX) as (r & Hr & Fr & Cx). destruct (acos_eval y Fy By HY) as (s & Hs & Fs & Cy).
  exists r, s. refine (conj Hr (conj Hs (conj Fr (conj Fs _)))).
  assert (HP : hp = (13176795 / 8388608)%R) by reflexivity.
  assert (fhp : fmt hp) by exact fmt_1h.
  destruct Cx as [(X0 & Rx)|(p & Ip & Fp & Pp & Bp & Cx)].
  - destruct Cy as [(Y0 & Ry)|(q & Iq & Fq & Pq & Bq & [(Py & Ry)|(Py & Ry)])]; [lra|lra|lra].
  - assert (Neg : (val x < 0)%R -> (hp <= val r)%R).
    { intros NX. destruct Cx as [(Px & _)|(_ & Rx)]; [lra|]. rewrite Rx. rewrite <- (rnd_fmt hp fhp) at 1. apply rnd_le. lra. }
    destruct Cy as [(Y0 & Ry)|(q & Iq & Fq & Pq & Bq & Cy)].
    { destruct Cx as [(Px & _)|(Px & _)]; [lra|]. specialize (Neg Px). lra. }
    destruct (cosq_spec x Fx Bx) as (Fc & Sc & _). destruct (cosq_spec y Fy By) as (Fd & Sd & _). pose proof (fin_not_nan _ Fc) as Nc. pose proof (fin_not_nan _ Fd) as Nd.
    destruct Cx as [(Px & Rx)|(Px & Rx)]; destruct Cy as [(Py & Ry)|(Py & Ry)].
    + assert (O : fle (cosq y) (cosq x) = true) by (apply cosq_order; trivial; rewrite !Rabs_pos_eq by lra; lra).
      destruct (sqrt_monotone _ _ Nd Nc Sd Sc O) as (a & b & Ia & Ib & _ & _ & V). rewrite Iq in Ia. rewrite Ip in Ib. apply Ok_inj in Ia. apply Ok_inj in Ib. subst a b.
      assert (M : (0 <= rnd (val q / val y) <= rnd (val p / val x))%R).
      { split; [apply rnd_nonneg; apply Rlt_le, Rmult_lt_0_compat; [lra|apply Rinv_0_lt_compat; lra]|]. apply rnd_le.
        apply Rmult_le_compat; [lra|apply Rlt_le, Rinv_0_lt_compat; lra|lra|apply Rinv_le_contravar; lra]. }
      rewrite Rx, Ry. rewrite !Rabs_pos_eq in * by lra. pose proof (AT_mono _ _ M) as Q. unfold u24 in Q. rewrite HP in *. lra.
    + lra.
    + specialize (Neg Px). lra.
    + assert (O : fle (cosq x) (cosq y) = true) by (apply cosq_order; trivial; rewrite !Rabs_left by lra; lra).
      destruct (sqrt_monotone _ _ Nc Nd Sc Sd O) as (a & b & Ia & Ib & _ & _ & V). rewrite Ip in Ia. rewrite Iq in Ib. apply Ok_inj in Ia. apply Ok_inj in Ib. subst a b.
      assert (FL : forall a z, (z < 0)%R -> (0 < a)%R -> Rabs (rnd (a / z)) = rnd (a / - z)).
      { intros a z Hz Ha. replace (a / z)%R with (- (a / - z))%R by (field; lra). rewrite rnd_opp, Rabs_Ropp. apply Rabs_pos_eq, rnd_nonneg. apply Rlt_le, Rmult_lt_0_compat; [exact Ha|apply Rinv_0_lt_compat; lra]. }
      pose proof (FL (val p) (val x) Px ltac:(lra)) as F1. pose proof (FL (val q) (val y) Py ltac:(lra)) as F2. rewrite F1 in Bp, Rx. rewrite F2 in Bq, Ry.
      assert (M : (0 <= rnd (val p / - val x) <= rnd (val q / - val y))%R).
      { split; [apply rnd_nonneg; apply Rlt_le, Rmult_lt_0_compat; [lra|apply Rinv_0_lt_compat; lra]|]. apply rnd_le.
        apply Rmult_le_compat; [lra|apply Rlt_le, Rinv_0_lt_compat; lra|lra|apply Rinv_le_contravar; lra]. }
      pose proof (AT_mono _ _ M) as Q. unfold u24 in Q. set (A := AT (rnd (val p / - val x))) in *. set (B := AT (rnd (val q / - val y))) in *.
      rewrite Rx, Ry.
      pose proof (rnd_err 2 (2 * hp - A) ltac:(lia) ltac:(change (bpow radix2 2) with 4%R; apply Rabs_le; rewrite HP in *; lra)) as E1.
      pose proof (rnd_err 2 (2 * hp - B) ltac:(lia) ltac:(change (bpow radix2 2) with 4%R; apply Rabs_le; rewrite HP in *; lra)) as E2.
      change (bpow radix2 (2 - 25)) with (/ 8388608)%R in *. apply Rabs_le_inv in E1. apply Rabs_le_inv in E2. rewrite HP in *. lra.
Qed.

(** ** The order is not kept exactly *)

Lemma atan_order_broken : forall {E : Env}, exists x y, fin x /\ fin y /\ (0 < val x < val y)%R /\ (val (F32_atan y) < val (F32_atan x))%R.
Proof.
  intros E. exists (from_bits 0x3F9E2E59), (from_bits 0x3F9E2E5A). split; [reflexivity|]. split; [reflexivity|].
  assert (L : (val (from_bits 0x3F9E2E59) < val (from_bits 0x3F9E2E5A))%R) by (apply lt_of_flt; vm_compute; reflexivity).
  assert (Z : (val F32_ZERO < val (from_bits 0x3F9E2E59))%R) by (apply lt_of_flt; vm_compute; reflexivity).
  rewrite (proj2 zero_val) in Z. split; [lra|]. apply lt_of_flt; vm_compute; reflexivity.
Qed.

Lemma asin_order_broken : forall {E : Env}, exists x y r s, fin x /\ fin y /\ (0 < val x < val y)%R /\ (val y < 1)%R /\ F32_asin x = Ok r /\ F32_asin y = Ok s /\ (val s < val r)%R.
Proof.
  intros E. exists (from_bits 0x3F44C89B), (from_bits 0x3F44C89C), (from_bits 0x3F640E8A), (from_bits 0x3F640E86). split; [reflexivity|]. split; [reflexivity|].
  assert (L : (val (from_bits 0x3F44C89B) < val (from_bits 0x3F44C89C))%R) by (apply lt_of_flt; vm_compute; reflexivity).
  assert (Z : (val F32_ZERO < val (from_bits 0x3F44C89B))%R) by (apply lt_of_flt; vm_compute; reflexivity).
  assert (O : (val (from_bits 0x3F44C89C) < val F32_ONE)%R) by (apply lt_of_flt; vm_compute; reflexivity).
  rewrite (proj2 zero_val) in Z. rewrite (proj2 one_val) in O. split; [lra|]. split; [lra|]. split; [apply ok_bits; vm_compute; reflexivity|]. split; [apply ok_bits; vm_compute; reflexivity|]. apply lt_of_flt; vm_compute; reflexivity.
Qed.

Lemma acos_order_broken : forall {E : Env}, exists x y r s, fin x /\ fin y /\ (0 < val x < val y)%R /\ (val y < 1)%R /\ F32_acos x = Ok r /\ F32_acos y = Ok s /\ (val r < val s)%R.
Proof.
  intros E. exists (from_bits 0x3E00002E), (from_bits 0x3E00002F), (from_bits 0x3FB95FA5), (from_bits 0x3FB95FA7). split; [reflexivity|]. split; [reflexivity|].
  assert (L : (val (from_bits 0x3E00002E) < val (from_bits 0x3E00002F))%R) by (apply lt_of_flt; vm_compute; reflexivity).
  assert (Z : (val F32_ZERO < val (from_bits 0x3E00002E))%R) by (apply lt_of_flt; vm_compute; reflexivity).
  assert (O : (val (from_bits 0x3E00002F) < val F32_ONE)%R) by (apply lt_of_flt; vm_compute; reflexivity).
  rewrite (proj2 zero_val) in Z. rewrite (proj2 one_val) in O. split; [lra|]. split; [lra|]. split; [apply ok_bits; vm_compute; reflexivity|]. split; [apply ok_bits; vm_compute; reflexivity|]. apply lt_of_flt; vm_compute; reflexivity.
Qed.

Lemma atan_order_tiny : forall {E : Env} x y, fin x -> fin y -> (0 <= val x)%R -> (val x <= val y)%R -> (val y <= bpow radix2 (-30))%R ->
  fin (F32_atan x) /\ fin (F32_atan y) /\ (val (F32_atan x) <= val (F32_atan y))%R.
Proof.
  intros E x y Fx Fy P H U. assert (B : (bpow radix2 (-30) < bpow radix2 64)%R) by (apply bpow_lt; lia).
  destruct (atan_real x Fx ltac:(rewrite Rabs_pos_eq; lra)) as [Ax Vx]. destruct (atan_real y Fy ltac:(rewrite Rabs_pos_eq; lra)) as [Ay Vy].
  refine (conj Ax (conj Ay _)). rewrite Vx, Vy. rewrite !Rabs_pos_eq by lra. pose proof (AT_tiny_mono (val x) (val y) ltac:(lra) U) as M. pose proof (AT_nonneg (val x) P) as N.
  pose proof (sign_val x Fx) as Sx. pose proof (sign_val y Fy) as Sy.
  destruct (sign_bit y).
  - assert (Zy : val y = 0%R) by lra. assert (Zx : val x = 0%R) by lra. rewrite Zx, Zy, AT_0. lra.
  - destruct (sign_bit x); lra.
Qed.
