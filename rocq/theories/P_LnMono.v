(** * Proofs for C126: ln, log2 and log10 keep the order up to a few roundings *)

From Coq Require Import ZArith Reals Bool List Lia Lra.
From Flocq Require Import Core IEEE754.Binary IEEE754.Bits.
From Verif Require Import Base Spec Float F32Lemmas BitLemmas P_Trunc P_Floor Literals ErrLemmas P_RoundEdge NanLemmas P_Euclid P_Roots P_InvSqrt P_SumSq RealBounds RealBounds2 RealBounds3 RealBounds7 P_Quat P_Trig P_Atan P_Atan2 P_Asin P_Ln P_Sign P_Stats2 P_Mono P_Powf.
Open Scope Z_scope.

(** ** The polynomial, with a tight error *)

Lemma times12 : forall d e Y, (Rabs d <= e)%R -> (1 <= Y <= 2)%R -> (- (2 * e) <= d * Y <= 2 * e)%R.
Proof.
  intros d e Y H HY. apply Rabs_le_inv. rewrite Rabs_mult, (Rabs_pos_eq Y) by lra. pose proof (Rabs_pos d).
  assert (Rabs d * Y <= e * 2)%R by (apply Rmult_le_compat; lra). lra.
Qed.

Lemma poly_tight : forall {E : Env} y, fin y -> (1 <= val y <= 2)%R ->
  fin (ln_1to2_polynomial y) /\ (Rabs (val (ln_1to2_polynomial y) - lnpoly (val y)) <= 0.0000009)%R.
Proof.
  intros E y Fy Hy. unfold ln_1to2_polynomial. destruct c_ln0_val as [F0 V0]. destruct c_ln1_val as [F1 V1]. destruct c_ln2_val as [F2 V2]. destruct c_ln3_val as [F3 V3]. destruct c_ln4_val as [F4 V4].
  assert (N0 : fin (fneg c_1_7417939)) by (apply fneg_fin; exact F0). assert (N2 : fin (fneg c_1_4699568)) by (apply fneg_fin; exact F2).
  pose proof (fneg_val c_1_7417939) as W0. rewrite V0 in W0. pose proof (fneg_val c_1_4699568) as W2. rewrite V2 in W2.
  set (n0 := fneg c_1_7417939) in *. set (n2 := fneg c_1_4699568) in *. set (Y := val y) in *.
  destruct (fmul_e (-3) c_0_056570851 y F4 Fy ltac:(lia)) as (d1 & G1 & X1 & D1); [rewrite V4; fold Y; change (bpow radix2 (-3)) with (/ 8)%R; apply Rabs_le; lra|].
  change (bpow radix2 (-3 - 25)) with (/ 268435456)%R in D1. apply Rabs_le_inv in D1. rewrite V4 in X1. fold Y in X1. set (a1 := fmul c_0_056570851 y) in *.
  destruct (fsub_e (-1) c_0_44717955 a1 F3 G1 ltac:(lia)) as (d2 & G2 & X2 & D2); [rewrite V3, X1; change (bpow radix2 (-1)) with (/ 2)%R; apply Rabs_le; lra|].
  change (bpow radix2 (-1 - 25)) with (/ 67108864)%R in D2. apply Rabs_le_inv in D2. rewrite V3, X1 in X2. set (a2 := fsub c_0_44717955 a1) in *.
  set (P2 := (15004856 / 33554432 - 15185622 / 268435456 * Y)%R). assert (R2 : (0.334 <= P2 <= 0.391)%R) by (unfold P2; lra).
  assert (T2 : (Rabs (val a2 - P2) <= 0.0000000187)%R) by (rewrite X2; unfold P2; apply Rabs_le; lra).
  pose proof (times12 _ _ Y T2 Hy) as S2.
  assert (R3 : (0.39 <= P2 * Y <= 0.669)%R).
  { clear - Hy. unfold P2. split; nra. }
  destruct (fmul_e 0 a2 y G2 Fy ltac:(lia)) as (d3 & G3 & X3 & D3); [fold Y; change (bpow radix2 0) with 1%R; apply Rabs_le; lra|].
  change (bpow radix2 (0 - 25)) with (/ 33554432)%R in D3. apply Rabs_le_inv in D3. fold Y in X3. set (a3 := fmul a2 y) in *.
  destruct (fadd_e 1 n2 a3 N2 G3 ltac:(lia)) as (d4 & G4 & X4 & D4); [rewrite W2; change (bpow radix2 1) with 2%R; apply Rabs_le; lra|].
  change (bpow radix2 (1 - 25)) with (/ 16777216)%R in D4. apply Rabs_le_inv in D4. rewrite W2 in X4. set (a4 := fadd n2 a3) in *.
  set (P3 := (- (12330891 / 8388608) + P2 * Y)%R). assert (R4 : (-1.08 <= P3 <= -0.8)%R) by (unfold P3; lra).
  assert (T4 : (Rabs (val a4 - P3) <= 0.0000001269)%R) by (rewrite X4, X3; unfold P3; apply Rabs_le; lra).
  pose proof (times12 _ _ Y T4 Hy) as S4.
  assert (R5 : (-1.61 <= P3 * Y <= -1.07)%R) by (unfold P3, P2; clear - Hy; split; nra).
  destruct (fmul_e 1 a4 y G4 Fy ltac:(lia)) as (d5 & G5 & X5 & D5); [fold Y; change (bpow radix2 1) with 2%R; apply Rabs_le; lra|].
  change (bpow radix2 (1 - 25)) with (/ 16777216)%R in D5. apply Rabs_le_inv in D5. fold Y in X5. set (a5 := fmul a4 y) in *.
  destruct (fadd_e 1 c_2_8212026 a5 F1 G5 ltac:(lia)) as (d6 & G6 & X6 & D6); [rewrite V1; change (bpow radix2 1) with 2%R; apply Rabs_le; lra|].
  change (bpow radix2 (1 - 25)) with (/ 16777216)%R in D6. apply Rabs_le_inv in D6. rewrite V1 in X6. set (a6 := fadd c_2_8212026 a5) in *.
  set (P4 := (11832981 / 4194304 + P3 * Y)%R).
  assert (T6 : (Rabs (val a6 - P4) <= 0.0000003733)%R) by (rewrite X6, X5; unfold P4; apply Rabs_le; lra).
  pose proof (times12 _ _ Y T6 Hy) as S6. pose proof (lnpoly_range Y Hy) as RL.
  assert (EL : (lnpoly Y = - (14611226 / 8388608) + P4 * Y)%R) by (unfold lnpoly, P4, P3, P2; ring).
  destruct (fmul_e 2 a6 y G6 Fy ltac:(lia)) as (d7 & G7 & X7 & D7); [fold Y; change (bpow radix2 2) with 4%R; apply Rabs_le; lra|].
  change (bpow radix2 (2 - 25)) with (/ 8388608)%R in D7. apply Rabs_le_inv in D7. fold Y in X7. set (a7 := fmul a6 y) in *.
  destruct (fadd_e 0 n0 a7 N0 G7 ltac:(lia)) as (d8 & G8 & X8 & D8); [rewrite W0; change (bpow radix2 0) with 1%R; apply Rabs_le; lra|].
  change (bpow radix2 (0 - 25)) with (/ 33554432)%R in D8. apply Rabs_le_inv in D8. rewrite W0 in X8.
  split; [exact G8|]. rewrite X8, X7, EL. apply Rabs_le. lra.
Qed.

(** ** The function without roundings: an exponent times ln 2 plus the polynomial of the significand *)

Definition LN2 : R := (11629080 / 16777216)%R.
Definition Lf (w : R) : R := (IZR (mag radix2 w - 1) * LN2 + lnpoly (w * bpow radix2 (- (mag radix2 w - 1))))%R.

Lemma Lf_at : forall k v, (1 <= v < 2)%R -> Lf (v * bpow radix2 k) = (IZR k * LN2 + lnpoly v)%R.
Proof.
  intros k v H. pose proof (bpow_gt_0 radix2 k) as P. unfold Lf.
  assert (M : mag radix2 (v * bpow radix2 k) = k + 1 :> Z).
  { apply mag_unique_pos. replace (k + 1 - 1) with k by ring. rewrite bpow_plus. change (bpow radix2 1) with 2%R. nra. }
  rewrite M. replace (k + 1 - 1) with k by ring. rewrite Rmult_assoc, <- bpow_plus, Z.add_opp_diag_r. change (bpow radix2 0) with 1%R. rewrite Rmult_1_r. reflexivity.
Qed.

Lemma split_pos : forall w, (0 < w)%R -> exists k v, (1 <= v < 2)%R /\ w = (v * bpow radix2 k)%R.
Proof.
  intros w H. exists (mag radix2 w - 1), (w * bpow radix2 (- (mag radix2 w - 1)))%R. destruct (mag radix2 w) as [e B]. simpl. specialize (B ltac:(lra)). rewrite Rabs_pos_eq in B by lra. pose proof (bpow_gt_0 radix2 (- (e - 1))) as P. split.
  - assert (Q : (bpow radix2 (e - 1) * bpow radix2 (- (e - 1)) = 1)%R) by (rewrite <- bpow_plus, Z.add_opp_diag_r; reflexivity).
    assert (Q2 : (bpow radix2 e * bpow radix2 (- (e - 1)) = 2)%R) by (rewrite <- bpow_plus; replace (e + - (e - 1)) with 1 by ring; reflexivity).
    split; [rewrite <- Q; apply Rmult_le_compat_r; lra|rewrite <- Q2; apply Rmult_lt_compat_r; lra].
  - rewrite Rmult_assoc, <- bpow_plus. replace (- (e - 1) + (e - 1)) with 0 by ring. simpl. ring.
Qed.

Lemma binade_le : forall k v k' v', (1 <= v < 2)%R -> (1 <= v' < 2)%R -> (v * bpow radix2 k <= v' * bpow radix2 k')%R -> k = k' /\ (v <= v')%R \/ k + 1 <= k'.
Proof.
  intros k v k' v' H H' L. destruct (Z.lt_total k k') as [A|[A|A]]; [right; lia|left|exfalso].
  - subst k'. split; [reflexivity|]. apply Rmult_le_reg_r with (bpow radix2 k); [apply bpow_gt_0|exact L].
  - assert (bpow radix2 (k' + 1) <= bpow radix2 k)%R by (apply bpow_le; lia). rewrite bpow_plus in H0. change (bpow radix2 1) with 2%R in H0. pose proof (bpow_gt_0 radix2 k'). pose proof (bpow_gt_0 radix2 k).
    assert (1 * bpow radix2 k <= v * bpow radix2 k)%R by (apply Rmult_le_compat_r; lra). assert (v' * bpow radix2 k' < 2 * bpow radix2 k')%R by (apply Rmult_lt_compat_r; lra). lra.
Qed.

(** Passing to a higher binade gains at least 1e-4. *)
Lemma Lf_up : forall k v k' v', (1 <= v < 2)%R -> (1 <= v' < 2)%R -> k + 1 <= k' -> (Lf (v * bpow radix2 k) + 0.0001 <= Lf (v' * bpow radix2 k'))%R.
Proof.
  intros k v k' v' H H' L. rewrite !Lf_at by assumption. pose proof (lnpoly_mono v 2 ltac:(lra) ltac:(lra) ltac:(lra)) as A. pose proof (lnpoly_mono 1 v' ltac:(lra) ltac:(lra) ltac:(lra)) as B. pose proof lnpoly_wrap as W.
  apply IZR_le in L. rewrite plus_IZR in L. assert (C : ((IZR k + 1) * LN2 <= IZR k' * LN2)%R) by (apply Rmult_le_compat_r; [unfold LN2; lra|exact L]). unfold LN2 in *. lra.
Qed.

Lemma Lf_mono : forall w w', (0 < w <= w')%R -> (Lf w <= Lf w')%R.
Proof.
  intros w w' H. destruct (split_pos w ltac:(lra)) as (k & v & Hv & ->). destruct (split_pos w' ltac:(lra)) as (k' & v' & Hv' & ->).
  destruct (binade_le k v k' v' Hv Hv' ltac:(lra)) as [[<- L]|L].
  - rewrite !Lf_at by assumption. pose proof (lnpoly_mono v v' ltac:(lra) L ltac:(lra)). lra.
  - pose proof (Lf_up k v k' v' Hv Hv' L). lra.
Qed.

Lemma Lf_gap : forall w w', (0 < w)%R -> (w * 1.00005 <= w')%R -> (Lf w + 0.000049 <= Lf w')%R.
Proof.
  intros w w' H H'. apply Rle_trans with (Lf (w * 1.00005)); [|apply Lf_mono; lra]. clear H'.
  destruct (split_pos w H) as (k & v & Hv & ->). destruct (Rlt_or_le (v * 1.00005) 2) as [L|L].
  - replace (v * bpow radix2 k * 1.00005)%R with (v * 1.00005 * bpow radix2 k)%R by ring. rewrite !Lf_at by lra. pose proof (lnpoly_step v ltac:(lra) ltac:(lra)). lra.
  - replace (v * bpow radix2 k * 1.00005)%R with (v * 1.00005 / 2 * bpow radix2 (k + 1))%R by (rewrite bpow_plus; change (bpow radix2 1) with 2%R; field).
    pose proof (Lf_up k v (k + 1) (v * 1.00005 / 2)%R Hv ltac:(lra) ltac:(lia)). lra.
Qed.

Lemma Lf_range : forall w, (1 <= w)%R -> (0.00006 <= Lf w)%R.
Proof.
  intros w H. apply Rle_trans with (Lf 1); [|apply Lf_mono; lra]. pose proof (Lf_at 0 1 ltac:(lra)) as Q. simpl in Q. rewrite Rmult_1_r, Rmult_0_l in Q. rewrite Q. pose proof lnpoly_1. lra.
Qed.

(** ** ln of a float at or above one *)

Lemma ln_work_real : forall {E : Env} w, fin w -> (1 <= val w)%R ->
  fin (ln_work w) /\ (Rabs (val (ln_work w) - Lf (val w)) <= 0.00000091 + 2.01 / 16777216 * Lf (val w))%R.
Proof.
  intros E w Fw H.
  assert (NP : normal_pos w). { split; [exact Fw|]. apply Rle_trans with (2 := H). change 1%R with (bpow radix2 0). apply bpow_le; lia. }
  destruct (ln_work_acc w Fw H) as [FW _]. split; [exact FW|]. revert FW.
  pose proof (normal_split w NP) as S. cbv zeta in S. unfold ln_work. rewrite extract_exponent_value_eq.
  set (Ex := bexp (to_bits w)) in *. set (M := bman (to_bits w)) in *. destruct S as (HE & HM & HT & HS & HV).
  pose proof (frac01 M HM) as HF. set (m := (IZR M / IZR (2 ^ 23))%R) in *.
  assert (E1 : 127 <= Ex).
  { apply Z.le_ngt. intros L. assert (bpow radix2 (Ex - 127) <= bpow radix2 (-1))%R by (apply bpow_le; lia).
    change (bpow radix2 (-1)) with (/ 2)%R in H0. pose proof (bpow_gt_0 radix2 (Ex - 127)).
    assert ((1 + m) * bpow radix2 (Ex - 127) <= (1 + m) * / 2)%R by (apply Rmult_le_compat_l; lra). lra. }
  assert (U : as_u32 (Ex - 127) = Ex - 127) by (unfold as_u32; apply Z.mod_small; lia). rewrite U.
  destruct (f32_of_Z_exact (Ex - 127) ltac:(lia)) as [Fe Ve]. set (e := f32_of_Z (Ex - 127)) in *.
  rewrite land_exp by (rewrite HT; lia). fold Ex.
  replace (Ex * 2 ^ 23) with (Ex * 2 ^ 23 + 0) by ring.
  destruct (mk_val Ex 0 ltac:(lia) ltac:(lia)) as (Fd & _ & _ & Vd). cbv zeta in *. set (d := from_bits (Ex * 2 ^ 23 + 0)) in *.
  replace (1 + 0 / IZR (2 ^ 23))%R with 1%R in Vd by (unfold Rdiv; ring). rewrite Rmult_1_l in Vd.
  pose proof (bpow_gt_0 radix2 (Ex - 127)) as PB.
  assert (Q : (val w / val d = 1 + m)%R) by (rewrite HV, Vd; field; lra).
  assert (Fm : rnd (1 + m) = (1 + m)%R).
  { apply rnd_fmt. replace (1 + m)%R with (IZR (2 ^ 23 + M) * bpow radix2 (-23))%R.
    - apply fmt_scaled; [rewrite Z.abs_eq by lia; lia|lia].
    - rewrite plus_IZR. unfold m. change (bpow radix2 (-23)) with (/ IZR (2 ^ 23))%R. field. apply IZR_neq. lia. }
  destruct (fdiv_R w d Fw Fd) as [Fy Vy]; [lra|rewrite Q; apply (small_lt_128 1); [lia|apply Rabs_le; bpow_lit; lra]|].
  rewrite Q, Fm in Vy. set (y := fdiv w d) in *.
  destruct (poly_tight y Fy ltac:(lra)) as [FP DP]. rewrite Vy in DP. set (P := ln_1to2_polynomial y) in *.
  assert (HF1 : (1 <= 1 + m < 2)%R) by lra. rewrite HV, (Lf_at (Ex - 127) (1 + m)%R HF1).
  set (k := IZR (Ex - 127)) in *. assert (K : (0 <= k <= 127)%R) by (unfold k; split; apply IZR_le; lia).
  intros FW. destruct c_LN_2_val as [FL VL]. fold LN2 in VL.
  destruct (add_fin_both _ _ FW) as [FMu _]. rewrite (fadd_fin_val _ _ FMu FP FW), (fmul_fin_val _ _ Fe FL FMu), Ve, VL. fold k.
  assert (L0 : (0 <= k * LN2)%R) by (unfold LN2; lra).
  assert (R1 : (Rabs (rnd (k * LN2) - k * LN2) <= / 16777216 * (k * LN2))%R).
  { destruct (Z.eq_dec (Ex - 127) 0) as [Z0|Z0].
    - assert (k0 : k = 0%R) by (unfold k; rewrite Z0; reflexivity). rewrite k0, Rmult_0_l, (rnd_fmt 0) by apply generic_format_0. rewrite Rminus_0_r, Rabs_R0. lra.
    - assert (k1 : (1 <= k)%R) by (unfold k; apply IZR_le; lia). pose proof (rnd_rel (k * LN2)) as RR. rewrite u24_eq, (Rabs_pos_eq (k * LN2)) in RR by exact L0. unfold u24 in RR. apply RR.
      apply Rle_trans with (bpow radix2 (-1)); [apply bpow_le; lia|]. change (bpow radix2 (-1)) with (/ 2)%R. unfold LN2. lra. }
  pose proof (rnd_plus_rel (rnd (k * LN2)) (val P) (fmt_rnd _) (fmt_val _)) as R2. unfold u24 in R2.
  pose proof (lnpoly_mono 1 (1 + m) ltac:(lra) ltac:(lra) ltac:(lra)) as PM. pose proof lnpoly_1 as P1.
  apply Rabs_le_inv in R1. apply Rabs_le_inv in DP.
  rewrite (Rabs_pos_eq (rnd (k * LN2) + val P)) in R2 by lra. apply Rabs_le_inv in R2.
  set (A := (k * LN2)%R) in *. set (rA := rnd A) in *. set (p := lnpoly (1 + m)) in *. set (s := rnd (rA + val P)) in *. apply Rabs_le. lra.
Qed.

(** ** The three branches of ln *)

Lemma Lf_upper : forall w, fin w -> (1 <= val w)%R -> (0.00006 <= Lf (val w) <= 88.73)%R.
Proof.
  intros w F H. split; [apply Lf_range; exact H|]. pose proof (abs_B2R_lt_emax 24 128 w) as B. change (Rabs (val w) < bpow radix2 128)%R in B. rewrite Rabs_pos_eq in B by lra.
  destruct (split_pos (val w) ltac:(lra)) as (k & v & Hv & Ew). rewrite Ew in B |- *.
  assert (K : k <= 127).
  { apply Z.lt_succ_r. apply (lt_bpow radix2). change (Z.succ 127) with 128. pose proof (bpow_gt_0 radix2 k). apply Rle_lt_trans with (2 := B). rewrite <- (Rmult_1_l (bpow radix2 k)) at 1. apply Rmult_le_compat_r; lra. }
  rewrite Lf_at by exact Hv. apply IZR_le in K. pose proof (lnpoly_range v ltac:(lra)). assert (IZR k * LN2 <= 127 * LN2)%R by (apply Rmult_le_compat_r; [unfold LN2; lra|exact K]). unfold LN2 in *. lra.
Qed.

Lemma rnd_Rabs : forall r, rnd (Rabs r) = Rabs (rnd r).
Proof.
  intros r. destruct (Rle_or_lt 0 r) as [H|H].
  - rewrite (Rabs_pos_eq r H), Rabs_pos_eq; [reflexivity|apply rnd_nonneg; exact H].
  - rewrite (Rabs_left r H), rnd_opp, Rabs_left1; [reflexivity|]. pose proof (rnd_nonneg (- r) ltac:(lra)) as Q. rewrite rnd_opp in Q. lra.
Qed.

Lemma near_mono : forall {E : Env} x y, fin x -> fin y -> flt (F32_abs (fsub x F32_ONE)) F32_EPSILON = true -> (Rabs (val y - 1) <= Rabs (val x - 1))%R ->
  flt (F32_abs (fsub y F32_ONE)) F32_EPSILON = true.
Proof.
  intros E x y Fx Fy N H. destruct one_val as [FO VO]. pose proof (near_one x Fx N) as B.
  assert (Sx : (Rabs (val x - val F32_ONE) <= bpow radix2 0)%R) by (rewrite VO; change (bpow radix2 0) with 1%R; lra).
  assert (Sy : (Rabs (val y - val F32_ONE) <= bpow radix2 0)%R) by (rewrite VO; change (bpow radix2 0) with 1%R; lra).
  destruct (fsub_R x F32_ONE Fx FO (small_lt_128 0 _ ltac:(lia) Sx)) as [Gx Wx]. destruct (fsub_R y F32_ONE Fy FO (small_lt_128 0 _ ltac:(lia) Sy)) as [Gy Wy].
  assert (FE : fin F32_EPSILON) by reflexivity.
  assert (Ax : fin (F32_abs (fsub x F32_ONE))) by (unfold fin; rewrite abs_fin; exact Gx). assert (Ay : fin (F32_abs (fsub y F32_ONE))) by (unfold fin; rewrite abs_fin; exact Gy).
  rewrite flt_R in N |- * by assumption. rewrite abs_val, Wx, VO in N. rewrite abs_val, Wy, VO.
  destruct (Rlt_bool_spec (Rabs (rnd (val x - 1))) (val F32_EPSILON)) as [L|L]; [|discriminate N]. apply Rlt_bool_true.
  apply Rle_lt_trans with (2 := L). rewrite <- !rnd_Rabs. apply rnd_le. exact H.
Qed.

Lemma ln_inv_arg : forall {E : Env} x, fin x -> sign_bit x = false -> (val x < 1)%R -> fin (F32_inv x) /\ (1 <= val (F32_inv x))%R.
Proof.
  intros E x F S H. destruct one_val as [FO VO]. pose proof (inv_antitone x F32_ONE (fin_not_nan x F) eq_refl S eq_refl) as A.
  rewrite fle_R, VO, Rle_bool_true in A by (trivial; lra). specialize (A eq_refl).
  assert (I1 : F32_inv F32_ONE = F32_ONE) by (apply to_bits_inj; vm_compute; reflexivity). rewrite I1 in A.
  pose proof (nonneg_bits x (fin_not_nan x F) S) as B.
  assert (B1 : to_bits x <= 0x7F000000).
  { pose proof (fle_bits x F32_ONE (fin_not_nan x F) eq_refl S eq_refl) as L. rewrite fle_R, VO, Rle_bool_true in L by (trivial; lra). symmetry in L. apply Z.leb_le in L. change (to_bits F32_ONE) with 0x3F800000 in L. lia. }
  assert (Fi : fin (F32_inv x)).
  { rewrite inv_bits by exact B1. destruct (pos_bits (0x7F000000 - to_bits x) ltac:(lia)) as (C1 & C2 & C3). set (i := from_bits (0x7F000000 - to_bits x)) in *. clearbody i.
    destruct (is_finite i) eqn:K; [exact K|exfalso]. assert (J : i = f32_inf false).
    { destruct i as [t|t|t p K'|t m e K']; try discriminate. simpl in C2. subst t. reflexivity. }
    rewrite J in C3. change (to_bits (f32_inf false)) with 2139095040 in C3. lia. }
  split; [exact Fi|]. rewrite fle_R, VO in A by assumption. destruct (Rle_bool_spec 1 (val (F32_inv x))) as [L|L]; [exact L|discriminate A].
Qed.

Lemma ln_branches : forall {E : Env} x, fin x -> sign_bit x = false -> fin (F32_ln x) /\
  (flt (F32_abs (fsub x F32_ONE)) F32_EPSILON = true /\ (Rabs (val x - 1) < / 8388608)%R /\ val (F32_ln x) = 0%R \/
   flt (F32_abs (fsub x F32_ONE)) F32_EPSILON = false /\ (1 <= val x)%R /\ val (F32_ln x) = val (ln_work x) \/
   flt (F32_abs (fsub x F32_ONE)) F32_EPSILON = false /\ (val x < 1)%R /\ val (F32_ln x) = (- val (ln_work (F32_inv x)))%R).
Proof.
  intros E x F S. rewrite ln_eq. destruct (flt (F32_abs _) _) eqn:N.
  - destruct zero_val as [FZ VZ]. exact (conj FZ (or_introl (conj eq_refl (conj (near_one x F N) VZ)))).
  - destruct one_val as [FO VO]. rewrite flt_R, VO by assumption. destruct (Rlt_bool_spec (val x) 1) as [L|L].
    + destruct (ln_inv_arg x F S L) as [Fi Gi]. destruct (ln_work_real _ Fi Gi) as [Fw _]. split; [apply fneg_fin; exact Fw|]. right. right. rewrite fneg_val. exact (conj eq_refl (conj L eq_refl)).
    + destruct (ln_work_real _ F L) as [Fw _]. exact (conj Fw (or_intror (or_introl (conj eq_refl (conj L eq_refl))))).
Qed.

Lemma work_pos : forall {E : Env} w, fin w -> (1 <= val w)%R -> (0.000059 <= val (ln_work w) <= 88.74)%R.
Proof.
  intros E w F H. destruct (ln_work_real w F H) as [_ D]. pose proof (Lf_upper w F H) as L. apply Rabs_le_inv in D. lra.
Qed.

Lemma work_order : forall {E : Env} w w', fin w -> fin w' -> (1 <= val w <= val w')%R ->
  (val (ln_work w) <= val (ln_work w') + (0.00000183 + 4.03 / 16777216 * val (ln_work w')))%R.
Proof.
  intros E w w' F F' H. destruct (ln_work_real w F ltac:(lra)) as [_ D]. destruct (ln_work_real w' F' ltac:(lra)) as [_ D']. pose proof (Lf_mono (val w) (val w') ltac:(lra)) as M.
  pose proof (Lf_upper w F ltac:(lra)) as L. pose proof (Lf_upper w' F' ltac:(lra)) as L'. apply Rabs_le_inv in D. apply Rabs_le_inv in D'. lra.
Qed.

Lemma work_gap : forall {E : Env} w w', fin w -> fin w' -> (1 <= val w)%R -> (val w * 1.00005 <= val w')%R ->
  (val (ln_work w) + 0.000025 <= val (ln_work w'))%R.
Proof.
  intros E w w' F F' H H'. destruct (ln_work_real w F ltac:(lra)) as [_ D]. destruct (ln_work_real w' F' ltac:(lra)) as [_ D']. pose proof (Lf_gap (val w) (val w') ltac:(lra) H') as M.
  pose proof (Lf_upper w F ltac:(lra)) as L. pose proof (Lf_upper w' F' ltac:(lra)) as L'. apply Rabs_le_inv in D. apply Rabs_le_inv in D'. lra.
Qed.

(** ** ln keeps the order up to rounding *)

Lemma inv_order : forall {E : Env} x y, fin x -> fin y -> sign_bit x = false -> sign_bit y = false -> (val x <= val y < 1)%R -> (val (F32_inv y) <= val (F32_inv x))%R.
Proof.
  intros E x y Fx Fy Sx Sy H. destruct (ln_inv_arg x Fx Sx ltac:(lra)) as [Gx _]. destruct (ln_inv_arg y Fy Sy ltac:(lra)) as [Gy _].
  pose proof (inv_antitone x y (fin_not_nan x Fx) (fin_not_nan y Fy) Sx Sy) as A. rewrite fle_R, Rle_bool_true in A by (trivial; lra). specialize (A eq_refl).
  rewrite fle_R in A by assumption. destruct (Rle_bool_spec (val (F32_inv y)) (val (F32_inv x))) as [L|L]; [exact L|discriminate A].
Qed.

Lemma ln_order : forall {E : Env} x y, fin x -> fin y -> sign_bit x = false -> sign_bit y = false -> (val x <= val y)%R ->
  fin (F32_ln x) /\ fin (F32_ln y) /\
  (val (F32_ln x) <= val (F32_ln y) + (0.000002 + 4.1 / 16777216 * Rmax (Rabs (val (F32_ln x))) (Rabs (val (F32_ln y)))))%R.
Proof.
  intros E x y Fx Fy Sx Sy H. destruct (ln_branches x Fx Sx) as [Gx Cx]. destruct (ln_branches y Fy Sy) as [Gy Cy]. refine (conj Gx (conj Gy _)).
  set (M := Rmax _ _). assert (Mx : (Rabs (val (F32_ln x)) <= M)%R) by apply Rmax_l. assert (My : (Rabs (val (F32_ln y)) <= M)%R) by apply Rmax_r. clearbody M.
  assert (MP : (0 <= M)%R) by (apply Rle_trans with (2 := Mx); apply Rabs_pos).
  destruct Cx as [(Nx & Bx & Vx)|[(Nx & Bx & Vx)|(Nx & Bx & Vx)]]; destruct Cy as [(Ny & By & Vy)|[(Ny & By & Vy)|(Ny & By & Vy)]].
  - lra.
  - pose proof (work_pos y Fy By). lra.
  - exfalso. rewrite (near_mono x y Fx Fy Nx) in Ny; [discriminate|]. apply Rabs_lt_inv in Bx. rewrite !Rabs_left1 by lra. lra.
  - exfalso. rewrite (near_mono y x Fy Fx Ny) in Nx; [discriminate|]. rewrite !Rabs_pos_eq by lra. lra.
  - rewrite Vx, Vy in *. pose proof (work_order x y Fx Fy ltac:(lra)) as W. pose proof (work_pos y Fy By). rewrite (Rabs_pos_eq (val (ln_work y))) in My by lra. lra.
  - lra.
  - destruct (ln_inv_arg x Fx Sx Bx) as [Fi Gi]. pose proof (work_pos _ Fi Gi). lra.
  - destruct (ln_inv_arg x Fx Sx Bx) as [Fi Gi]. pose proof (work_pos _ Fi Gi). pose proof (work_pos y Fy By). lra.
  - rewrite Vx, Vy in *. destruct (ln_inv_arg x Fx Sx Bx) as [Fi Gi]. destruct (ln_inv_arg y Fy Sy By) as [Fj Gj]. pose proof (inv_order x y Fx Fy Sx Sy ltac:(lra)) as O.
    pose proof (work_order _ _ Fj Fi ltac:(lra)) as W. pose proof (work_pos _ Fi Gi). rewrite Rabs_Ropp, Rabs_pos_eq in Mx by lra. lra.
Qed.

(** ** Well separated arguments *)

Lemma inv_real : forall {E : Env} x k v, normal_pos x -> (val x < 1)%R -> (1 <= v < 2)%R -> val x = (v * bpow radix2 k)%R -> val (F32_inv x) = ((3 - v) / 2 * bpow radix2 (- k))%R.
Proof.
  intros E x k v Hx H1 Hv Vx. pose proof (normal_split x Hx) as N. cbv zeta in N.
  set (Ex := bexp (to_bits x)) in *. set (M := bman (to_bits x)) in *. destruct N as (HE & HM & HT & HS & HV).
  pose proof (frac01 M HM) as HF. set (m := (IZR M / IZR (2 ^ 23))%R) in *. rewrite HV in Vx.
  assert (HF1 : (1 <= 1 + m < 2)%R) by lra.
  assert (KV : Ex - 127 = k /\ (1 + m)%R = v).
  { destruct (binade_le (Ex - 127) (1 + m)%R k v HF1 Hv ltac:(lra)) as [[A B]|A]; destruct (binade_le k v (Ex - 127) (1 + m)%R Hv HF1 ltac:(lra)) as [[A' B']|A']; try lia. split; [exact A|lra]. }
  destruct KV as [<- <-]. clear Vx.
  assert (E1 : Ex <= 126).
  { apply Z.le_ngt. intros L. assert (bpow radix2 0 <= bpow radix2 (Ex - 127))%R by (apply bpow_le; lia). change (bpow radix2 0) with 1%R in H. rewrite HV in H1.
    assert (1 * 1 <= (1 + m) * bpow radix2 (Ex - 127))%R by (apply Rmult_le_compat; lra). lra. }
  rewrite inv_bits by lia. rewrite HT. destruct (Z.eq_dec M 0) as [Z0|Z0].
  - assert (m0 : m = 0%R) by (unfold m, Rdiv; rewrite Z0; ring). rewrite Z0, m0. replace (0x7F000000 - (Ex * 2 ^ 23 + 0)) with ((254 - Ex) * 2 ^ 23 + 0) by lia.
    destruct (mk_val (254 - Ex) 0 ltac:(lia) ltac:(lia)) as (_ & _ & _ & V). cbv zeta in V. rewrite V. replace (254 - Ex - 127) with (- (Ex - 127)) by ring. field. apply IZR_neq. lia.
  - replace (0x7F000000 - (Ex * 2 ^ 23 + M)) with ((253 - Ex) * 2 ^ 23 + (2 ^ 23 - M)) by lia.
    destruct (mk_val (253 - Ex) (2 ^ 23 - M) ltac:(lia) ltac:(lia)) as (_ & _ & _ & V). cbv zeta in V. rewrite V.
    assert (Y : (1 + IZR (2 ^ 23 - M) / IZR (2 ^ 23) = 2 - m)%R) by (unfold m; rewrite minus_IZR; field; apply IZR_neq; lia). rewrite Y.
    replace (- (Ex - 127)) with ((253 - Ex - 127) + 1) by ring. rewrite bpow_plus. change (bpow radix2 1) with 2%R. field.
Qed.

Lemma inv_gap : forall {E : Env} x y, normal_pos x -> normal_pos y -> (val y < 1)%R -> (val x * 1.0001 <= val y)%R -> (val (F32_inv y) * 1.00005 <= val (F32_inv x))%R.
Proof.
  intros E x y Nx Ny H1 H. pose proof (normal_pos_gt0 x Nx) as Px. pose proof (normal_pos_gt0 y Ny) as Py.
  destruct (split_pos (val x) Px) as (k & v & Hv & Vx). destruct (split_pos (val y) Py) as (k' & v' & Hv' & Vy).
  rewrite (inv_real x k v Nx ltac:(lra) Hv Vx), (inv_real y k' v' Ny H1 Hv' Vy). rewrite Vx, Vy in H.
  destruct (binade_le k v k' v' Hv Hv') as [[A B]|A]; [rewrite Vx, Vy in *; lra| |].
  - subst k'. replace (v * bpow radix2 k * 1.0001)%R with (v * 1.0001 * bpow radix2 k)%R in H by ring. apply Rmult_le_reg_r in H; [|apply bpow_gt_0].
    replace ((3 - v') / 2 * bpow radix2 (- k) * 1.00005)%R with ((3 - v') / 2 * 1.00005 * bpow radix2 (- k))%R by ring. apply Rmult_le_compat_r; [apply bpow_ge_0|]. lra.
  - destruct (Z.eq_dec k' (k + 1)) as [Q|Q].
    + subst k'. rewrite bpow_plus in H. change (bpow radix2 1) with 2%R in H. replace (v * bpow radix2 k * 1.0001)%R with (v * 1.0001 * bpow radix2 k)%R in H by ring. replace (v' * (bpow radix2 k * 2))%R with (v' * 2 * bpow radix2 k)%R in H by ring. apply Rmult_le_reg_r in H; [|apply bpow_gt_0].
      replace (- k) with (- (k + 1) + 1) by ring. rewrite bpow_plus. change (bpow radix2 1) with 2%R. replace ((3 - v) / 2 * (bpow radix2 (- (k + 1)) * 2))%R with ((3 - v) * bpow radix2 (- (k + 1)))%R by field.
      replace ((3 - v') / 2 * bpow radix2 (- (k + 1)) * 1.00005)%R with ((3 - v') / 2 * 1.00005 * bpow radix2 (- (k + 1)))%R by ring. apply Rmult_le_compat_r; [apply bpow_ge_0|]. lra.
    + apply Rle_trans with (1 / 2 * bpow radix2 (- k))%R; [|apply Rmult_le_compat_r; [apply bpow_ge_0|lra]].
      apply Rle_trans with ((3 - v') / 2 * bpow radix2 (- (k + 2)) * 1.00005)%R.
      * apply Rmult_le_compat_r; [lra|]. apply Rmult_le_compat_l; [lra|]. apply bpow_le. lia.
      * replace (- k) with (- (k + 2) + 2) by ring. rewrite bpow_plus. change (bpow radix2 2) with 4%R. replace ((3 - v') / 2 * bpow radix2 (- (k + 2)) * 1.00005)%R with ((3 - v') / 2 * 1.00005 * bpow radix2 (- (k + 2)))%R by ring.
        replace (1 / 2 * (bpow radix2 (- (k + 2)) * 4))%R with (2 * bpow radix2 (- (k + 2)))%R by field. apply Rmult_le_compat_r; [apply bpow_ge_0|]. lra.
Qed.

Lemma ln_gap : forall {E : Env} x y, normal_pos x -> fin y -> (val x * 1.0001 <= val y)%R ->
  fin (F32_ln x) /\ fin (F32_ln y) /\ (val (F32_ln x) + 0.000025 <= val (F32_ln y))%R.
Proof.
  intros E x y Nx Fy H. pose proof (normal_pos_gt0 x Nx) as Px. destruct Nx as [Fx Bx']. assert (Ny : normal_pos y) by (split; [exact Fy|lra]).
  assert (Sx : sign_bit x = false) by (pose proof (sign_val x Fx) as Q; destruct (sign_bit x); [lra|reflexivity]).
  assert (Sy : sign_bit y = false) by (pose proof (sign_val y Fy) as Q; destruct (sign_bit y); [lra|reflexivity]).
  destruct (ln_branches x Fx Sx) as [Gx Cx]. destruct (ln_branches y Fy Sy) as [Gy Cy]. refine (conj Gx (conj Gy _)).
  destruct Cx as [(Nx & Bx & Vx)|[(Nx & Bx & Vx)|(Nx & Bx & Vx)]]; destruct Cy as [(Nny & By & Vy)|[(Nny & By & Vy)|(Nny & By & Vy)]].
  - exfalso. apply Rabs_lt_inv in Bx. apply Rabs_lt_inv in By. lra.
  - pose proof (work_pos y Fy By). lra.
  - exfalso. apply Rabs_lt_inv in Bx. lra.
  - exfalso. apply Rabs_lt_inv in By. lra.
  - rewrite Vx, Vy. apply work_gap; try assumption. lra.
  - exfalso. lra.
  - destruct (ln_inv_arg x Fx Sx Bx) as [Fi Gi]. pose proof (work_pos _ Fi Gi). lra.
  - destruct (ln_inv_arg x Fx Sx Bx) as [Fi Gi]. pose proof (work_pos _ Fi Gi). pose proof (work_pos y Fy By). lra.
  - rewrite Vx, Vy. destruct (ln_inv_arg x Fx Sx Bx) as [Fi Gi]. destruct (ln_inv_arg y Fy Sy By) as [Fj Gj]. pose proof (inv_gap x y (conj Fx Bx') Ny By H) as G.
    pose proof (work_gap _ _ Fj Fi Gj G). lra.
Qed.

(** ** log2 and log10 *)

Lemma ln_size : forall {E : Env} x, fin x -> sign_bit x = false -> fin (F32_ln x) /\ (val (F32_ln x) = 0 \/ 0.000059 <= Rabs (val (F32_ln x)) <= 88.74)%R.
Proof.
  intros E x F S. destruct (ln_branches x F S) as [G [(_ & _ & V)|[(_ & B & V)|(_ & B & V)]]]; (split; [exact G|]).
  - left. exact V.
  - right. rewrite V. pose proof (work_pos x F B) as W. rewrite Rabs_pos_eq by lra. exact W.
  - right. rewrite V, Rabs_Ropp. destruct (ln_inv_arg x F S B) as [Fi Gi]. pose proof (work_pos _ Fi Gi) as W. rewrite Rabs_pos_eq by lra. exact W.
Qed.

Lemma log_scaled : forall {E : Env} l c, fin l -> fin c -> (0.43 <= val c <= 1.45)%R -> (val l = 0 \/ 0.000059 <= Rabs (val l) <= 88.74)%R ->
  fin (fmul l c) /\ (Rabs (val (fmul l c) - val l * val c) <= / 16777216 * (Rabs (val l) * val c))%R.
Proof.
  intros E l c Fl Fc Hc H. assert (A : Rabs (val l * val c) = (Rabs (val l) * val c)%R) by (rewrite Rabs_mult, (Rabs_pos_eq (val c)) by lra; reflexivity).
  assert (U : (Rabs (val l * val c) <= bpow radix2 8)%R).
  { rewrite A. change (bpow radix2 8) with 256%R. destruct H as [->|H]; [rewrite Rabs_R0; lra|]. assert (Rabs (val l) * val c <= 88.74 * 1.45)%R by (apply Rmult_le_compat; lra). lra. }
  destruct (fmul_R l c Fl Fc (small_lt_128 8 _ ltac:(lia) U)) as [F V]. split; [exact F|]. rewrite V. destruct H as [Z|H].
  - rewrite Z, Rabs_R0, !Rmult_0_l, (rnd_fmt 0) by apply generic_format_0. rewrite Rminus_0_r, Rabs_R0. lra.
  - pose proof (rnd_rel (val l * val c)) as R. rewrite u24_eq, A in R. unfold u24 in R. apply R. apply Rle_trans with (bpow radix2 (-16)); [apply bpow_le; lia|]. change (bpow radix2 (-16)) with (/ 65536)%R.
    assert (0.000059 * 0.43 <= Rabs (val l) * val c)%R by (apply Rmult_le_compat; lra). lra.
Qed.

Lemma log_order : forall {E : Env} c x y, fin c -> (0.43 <= val c <= 1.45)%R -> fin x -> fin y -> sign_bit x = false -> sign_bit y = false -> (val x <= val y)%R ->
  fin (fmul (F32_ln x) c) /\ fin (fmul (F32_ln y) c) /\
  (val (fmul (F32_ln x) c) <= val (fmul (F32_ln y) c) + (0.000002 * val c + 6.2 / 16777216 * Rmax (Rabs (val (fmul (F32_ln x) c))) (Rabs (val (fmul (F32_ln y) c)))))%R.
Proof.
  intros E c x y Fc Hc Fx Fy Sx Sy H. destruct (ln_order x y Fx Fy Sx Sy H) as (Gx & Gy & O). destruct (ln_size x Fx Sx) as [_ Zx]. destruct (ln_size y Fy Sy) as [_ Zy].
  destruct (log_scaled _ c Gx Fc Hc Zx) as [Ax Bx]. destruct (log_scaled _ c Gy Fc Hc Zy) as [Ay By]. refine (conj Ax (conj Ay _)).
  set (p := val (fmul (F32_ln x) c)) in *. set (q := val (fmul (F32_ln y) c)) in *. clearbody p q. set (a := val (F32_ln x)) in *. set (b := val (F32_ln y)) in *. set (C := val c) in *.
  assert (L : forall r s M, (Rabs (r - s * C) <= / 16777216 * (Rabs s * C))%R -> (Rabs r <= M)%R -> (Rabs s * C <= M * (1 + 2 / 16777216))%R).
  { intros r s M D R. pose proof (Rabs_triang_inv (s * C) (s * C - r)) as T. replace (s * C - (s * C - r))%R with r in T by ring. rewrite (Rabs_minus_sym (s * C) r), Rabs_mult, (Rabs_pos_eq C) in T by lra. pose proof (Rabs_pos r). lra. }
  set (M := Rmax (Rabs p) (Rabs q)) in *. assert (Mp : (Rabs p <= M)%R) by apply Rmax_l. assert (Mq : (Rabs q <= M)%R) by apply Rmax_r. clearbody M.
  pose proof (L p a M Bx Mp) as La. pose proof (L q b M By Mq) as Lb.
  assert (LM : (Rmax (Rabs a) (Rabs b) * C <= M * (1 + 2 / 16777216))%R) by (unfold Rmax; destruct (Rle_dec (Rabs a) (Rabs b)); assumption).
  assert (OC : (a * C <= (b + (0.000002 + 4.1 / 16777216 * Rmax (Rabs a) (Rabs b))) * C)%R) by (apply Rmult_le_compat_r; [lra|exact O]).
  set (N := Rmax (Rabs a) (Rabs b)) in *. apply Rabs_le_inv in Bx. apply Rabs_le_inv in By. pose proof (Rabs_pos p). assert (0 <= M)%R by lra.
  replace ((b + (0.000002 + 4.1 / 16777216 * N)) * C)%R with (b * C + (0.000002 * C + 4.1 / 16777216 * (N * C)))%R in OC by ring. lra.
Qed.

Lemma log_gap : forall {E : Env} c x y, fin c -> (0.43 <= val c <= 1.45)%R -> normal_pos x -> fin y -> (val x * 1.0001 <= val y)%R ->
  fin (fmul (F32_ln x) c) /\ fin (fmul (F32_ln y) c) /\ (val (fmul (F32_ln x) c) < val (fmul (F32_ln y) c))%R.
Proof.
  intros E c x y Fc Hc Nx Fy H. destruct (ln_gap x y Nx Fy H) as (Gx & Gy & O). pose proof (normal_pos_gt0 x Nx) as Px. destruct Nx as [Fx _].
  assert (Sx : sign_bit x = false) by (pose proof (sign_val x Fx) as Q; destruct (sign_bit x); [lra|reflexivity]).
  assert (Sy : sign_bit y = false) by (pose proof (sign_val y Fy) as Q; destruct (sign_bit y); [lra|reflexivity]).
  destruct (ln_size x Fx Sx) as [_ Zx]. destruct (ln_size y Fy Sy) as [_ Zy].
  destruct (log_scaled _ c Gx Fc Hc Zx) as [Ax Bx]. destruct (log_scaled _ c Gy Fc Hc Zy) as [Ay By]. refine (conj Ax (conj Ay _)).
  set (p := val (fmul (F32_ln x) c)) in *. set (q := val (fmul (F32_ln y) c)) in *. clearbody p q. set (a := val (F32_ln x)) in *. set (b := val (F32_ln y)) in *. set (C := val c) in *.
  assert (Ra : (Rabs a <= 88.74)%R) by (destruct Zx as [->|Zx]; [rewrite Rabs_R0|]; lra). assert (Rb : (Rabs b <= 88.74)%R) by (destruct Zy as [->|Zy]; [rewrite Rabs_R0|]; lra).
  assert (Ka : (Rabs a * C <= 88.74 * C)%R) by (apply Rmult_le_compat_r; lra). assert (Kb : (Rabs b * C <= 88.74 * C)%R) by (apply Rmult_le_compat_r; lra).
  assert (OC : ((a + 0.000025) * C <= b * C)%R) by (apply Rmult_le_compat_r; lra). apply Rabs_le_inv in Bx. apply Rabs_le_inv in By. lra.
Qed.

Lemma log2_log10_order : forall {E : Env} x y, fin x -> fin y -> sign_bit x = false -> sign_bit y = false -> (val x <= val y)%R ->
  fin (F32_log2 x) /\ fin (F32_log2 y) /\ fin (F32_log10 x) /\ fin (F32_log10 y) /\
  (val (F32_log2 x) <= val (F32_log2 y) + (0.000003 + 6.2 / 16777216 * Rmax (Rabs (val (F32_log2 x))) (Rabs (val (F32_log2 y)))))%R /\
  (val (F32_log10 x) <= val (F32_log10 y) + (0.000001 + 6.2 / 16777216 * Rmax (Rabs (val (F32_log10 x))) (Rabs (val (F32_log10 y)))))%R.
Proof.
  intros E x y Fx Fy Sx Sy H. destruct c_LOG2_E_val as [F2 V2]. destruct c_LOG10_E_val as [F10 V10].
  destruct (log_order c_LOG2_E x y F2 ltac:(rewrite V2; lra) Fx Fy Sx Sy H) as (A1 & A2 & A3). destruct (log_order c_LOG10_E x y F10 ltac:(rewrite V10; lra) Fx Fy Sx Sy H) as (B1 & B2 & B3).
  rewrite V2 in A3. rewrite V10 in B3. unfold F32_log2, F32_log10. refine (conj A1 (conj A2 (conj B1 (conj B2 (conj _ _))))); lra.
Qed.

Lemma logs_gap : forall {E : Env} x y, fin x -> fin y -> (bpow radix2 (-126) <= val x)%R -> (1.0001 * val x <= val y)%R ->
  (val (F32_ln x) + 0.000025 <= val (F32_ln y))%R /\ (val (F32_log2 x) < val (F32_log2 y))%R /\ (val (F32_log10 x) < val (F32_log10 y))%R.
Proof.
  intros E x y Fx Fy Nx H. destruct c_LOG2_E_val as [F2 V2]. destruct c_LOG10_E_val as [F10 V10].
  destruct (ln_gap x y (conj Fx Nx) Fy ltac:(lra)) as (_ & _ & A). destruct (log_gap c_LOG2_E x y F2 ltac:(rewrite V2; lra) (conj Fx Nx) Fy ltac:(lra)) as (_ & _ & B). destruct (log_gap c_LOG10_E x y F10 ltac:(rewrite V10; lra) (conj Fx Nx) Fy ltac:(lra)) as (_ & _ & C).
  exact (conj A (conj B C)).
Qed.

(** The order is not kept exactly. *)
Lemma ln_order_fails : forall {E : Env}, exists x y, fin x /\ fin y /\ (1 < val x)%R /\ (val x < val y)%R /\
  (val (F32_ln y) < val (F32_ln x))%R /\ (val (F32_log2 y) < val (F32_log2 x))%R /\ (val (F32_log10 y) < val (F32_log10 x))%R.
Proof.
  intros E. exists (from_bits 0x3FC0000E), (from_bits 0x3FC0000F). destruct one_val as [FO VO].
  assert (LT : forall a b, fin a -> fin b -> flt a b = true -> (val a < val b)%R) by (intros a b Fa Fb H; rewrite flt_R in H by assumption; destruct (Rlt_bool_spec (val a) (val b)) as [L|L]; [exact L|discriminate H]).
  refine (conj eq_refl (conj eq_refl (conj _ (conj _ (conj _ (conj _ _)))))).
  - rewrite <- VO. apply LT; [exact FO|reflexivity|vm_compute; reflexivity].
  - apply LT; [reflexivity|reflexivity|vm_compute; reflexivity].
  - apply LT; vm_compute; reflexivity.
  - apply LT; vm_compute; reflexivity.
  - apply LT; vm_compute; reflexivity.
Qed.
