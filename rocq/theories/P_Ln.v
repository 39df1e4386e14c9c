(** * ln, log, log2, log10 *)

From Coq Require Import ZArith Reals Bool List Lia Lra.
From Flocq Require Import Core IEEE754.BinarySingleNaN IEEE754.Binary IEEE754.Bits.
From Verif Require Import Base Spec Float F32Lemmas BitLemmas P_Trunc P_Floor Literals ErrLemmas P_RoundEdge
  NanLemmas P_Euclid P_Roots P_InvSqrt P_SumSq RealBounds RealBounds2 RealBounds3 P_Quat P_Trig P_Atan P_Atan2 P_Asin.
Open Scope Z_scope.

Definition ln_work {E : Env} (w : f32) : f32 :=
  fadd (fmul (f32_of_Z (as_u32 (extract_exponent_value w))) c_LN_2)
    (ln_1to2_polynomial (fdiv w (from_bits (Z.land (to_bits w) EXPONENT_MASK)))).

Lemma ln_eq : forall {E : Env} x, F32_ln x =
  if flt (F32_abs (fsub x F32_ONE)) F32_EPSILON then F32_ZERO
  else if flt x F32_ONE then fneg (ln_work (F32_inv x)) else ln_work x.
Proof.
  intros E x. unfold F32_ln. destruct (flt (F32_abs _) _); [reflexivity|]. cbv zeta. destruct (flt x F32_ONE); reflexivity.
Qed.

Lemma land_exp : forall b, 0 <= b < 2 ^ 31 -> Z.land b EXPONENT_MASK = bexp b * 2 ^ 23.
Proof.
  intros b H. unfold bexp. change EXPONENT_MASK with (Z.shiftl (Z.ones 8) 23).
  apply Z.bits_inj'. intros n Hn. rewrite Z.land_spec, Z.shiftl_spec by exact Hn.
  rewrite <- Z.shiftl_mul_pow2, Z.shiftl_spec by lia.
  rewrite <- Z.shiftr_div_pow2 by lia. change 256 with (2 ^ 8).
  destruct (Z.ltb_spec n 23) as [L|L].
  - rewrite !(Z.testbit_neg_r _ (n - 23)) by lia. apply andb_false_r.
  - destruct (Z.ltb_spec (n - 23) 8) as [L8|L8].
    + rewrite Z.ones_spec_low by lia. rewrite Z.mod_pow2_bits_low by lia. rewrite Z.shiftr_spec by lia.
      rewrite andb_true_r. f_equal. lia.
    + rewrite Z.ones_spec_high, Z.mod_pow2_bits_high by lia. apply andb_false_r.
Qed.

Lemma poly_acc : forall {E : Env} y, fin y -> (1 <= val y <= 2)%R ->
  tr (ln_1to2_polynomial y) (lnpoly (val y)) 0.69322 0.0000028.
Proof.
  intros E y Fy Hy. unfold ln_1to2_polynomial. pose proof eta_tiny as ET.
  assert (b127 : (1000 <= bpow radix2 127)%R) by (apply Rle_trans with (bpow radix2 10); [bpow_lit; lra|apply bpow_le; lia]).
  assert (TY : tr y (val y) 2 0) by (apply tr_in; [exact Fy|apply Rabs_le; lra]).
  pose proof (tr_const _ _ c_ln4_val) as T4. pose proof (tr_const _ _ c_ln3_val) as T3. pose proof (tr_const _ _ c_ln1_val) as T1.
  rewrite Rabs_pos_eq in T4, T3, T1 by lra.
  assert (T2 : tr (fneg c_1_4699568) (- (12330891 / 8388608)) (12330891 / 8388608) 0).
  { destruct c_ln2_val as [F V]. split; [apply fneg_fin; exact F|]. rewrite fneg_val, V, Rabs_left by lra. split; [lra|]. apply Rabs_le; lra. }
  assert (T0 : tr (fneg c_1_7417939) (- (14611226 / 8388608)) (14611226 / 8388608) 0).
  { destruct c_ln0_val as [F V]. split; [apply fneg_fin; exact F|]. rewrite fneg_val, V, Rabs_left by lra. split; [lra|]. apply Rabs_le; lra. }
  set (Y := val y) in *.
  assert (A1 : tr (fmul c_0_056570851 y) (15185622 / 268435456 * Y) 0.1132 0.00000001).
  { eapply tr_weaken; [apply (tr_mul _ _ _ _ _ _ _ _ T4 TY); lra|lra|unfold u24; lra]. }
  assert (A2 : tr (fsub c_0_44717955 (fmul c_0_056570851 y)) (15004856 / 33554432 - 15185622 / 268435456 * Y) 0.4 0.00000005).
  { eapply tr_tight; [eapply tr_weaken; [apply (tr_sub _ _ _ _ _ _ _ _ T3 A1); lra|apply Rle_refl|unfold u24; lra]|].
    apply Rabs_le; lra. }
  set (P2 := (15004856 / 33554432 - 15185622 / 268435456 * Y)%R) in *.
  assert (R2 : (0.33 <= P2 <= 0.4)%R) by (unfold P2; lra).
  assert (A3 : tr (fmul (fsub c_0_44717955 (fmul c_0_056570851 y)) y) (P2 * Y) 0.8 0.00000015).
  { eapply tr_weaken; [apply (tr_mul _ _ _ _ _ _ _ _ A2 TY); lra|lra|unfold u24; lra]. }
  assert (R3 : (0.33 * 1 <= P2 * Y <= 0.4 * 2)%R) by (split; apply Rmult_le_compat; lra).
  assert (A4 : tr (fadd (fneg c_1_4699568) (fmul (fsub c_0_44717955 (fmul c_0_056570851 y)) y)) (- (12330891 / 8388608) + P2 * Y) 1.2 0.0000003).
  { eapply tr_tight; [eapply tr_weaken; [apply (tr_add _ _ _ _ _ _ _ _ T2 A3); lra|apply Rle_refl|unfold u24; lra]|].
    apply Rabs_le; lra. }
  set (q3 := fadd (fneg c_1_4699568) _) in *. set (P3 := (- (12330891 / 8388608) + P2 * Y)%R) in *.
  assert (R4 : (-1.15 <= P3 <= -0.66)%R) by (unfold P3; lra).
  assert (R5 : (-1.15 * 2 <= P3 * Y <= -0.66)%R).
  { assert (0.66 * 1 <= - P3 * Y <= 1.15 * 2)%R by (split; apply Rmult_le_compat; lra). lra. }
  assert (A5 : tr (fmul q3 y) (P3 * Y) 2.3 0.00000076).
  { eapply tr_tight; [eapply tr_weaken; [apply (tr_mul _ _ _ _ _ _ _ _ A4 TY); lra|apply Rle_refl|unfold u24; lra]|apply Rabs_le; lra]. }
  assert (A6 : tr (fadd c_2_8212026 (fmul q3 y)) (11832981 / 4194304 + P3 * Y) 2.2 0.0000011).
  { eapply tr_tight; [eapply tr_weaken; [apply (tr_add _ _ _ _ _ _ _ _ T1 A5); lra|apply Rle_refl|unfold u24; lra]|].
    apply Rabs_le; lra. }
  set (q4 := fadd c_2_8212026 _) in *. set (P4 := (11832981 / 4194304 + P3 * Y)%R) in *.
  pose proof (lnpoly_range Y Hy) as RL.
  assert (EL : (lnpoly Y = - (14611226 / 8388608) + P4 * Y)%R) by (unfold lnpoly, P4, P3, P2; ring).
  assert (A7 : tr (fmul q4 y) (P4 * Y) 2.44 0.0000025).
  { eapply tr_tight; [eapply tr_weaken; [apply (tr_mul _ _ _ _ _ _ _ _ A6 TY); lra|apply Rle_refl|unfold u24; lra]|apply Rabs_le; lra]. }
  rewrite EL.
  eapply tr_tight; [eapply tr_weaken; [apply (tr_add _ _ _ _ _ _ _ _ T0 A7); lra|apply Rle_refl|unfold u24; lra]|].
  apply Rabs_le; lra.
Qed.

Lemma ln_bpow : forall k, ln (bpow radix2 k) = (IZR k * ln 2)%R.
Proof.
  intros k. rewrite bpow_powerRZ. change (IZR radix2) with 2%R. destruct k as [|p|p].
  - simpl. rewrite ln_1. ring.
  - simpl. rewrite ln_pow by lra. rewrite INR_IZR_INZ, positive_nat_Z. reflexivity.
  - simpl. rewrite ln_Rinv by (apply pow_lt; lra). rewrite ln_pow by lra. rewrite INR_IZR_INZ, positive_nat_Z.
    change (IZR (Z.neg p)) with (- IZR (Z.pos p))%R. ring.
Qed.

Lemma ln_work_acc : forall {E : Env} w, fin w -> (1 <= val w)%R ->
  fin (ln_work w) /\ (Rabs (val (ln_work w) - ln (val w)) <= 0.0000761)%R.
Proof.
  intros E w Fw H.
  assert (NP : normal_pos w). { split; [exact Fw|]. apply Rle_trans with (2 := H). change 1%R with (bpow radix2 0). apply bpow_le; lia. }
  pose proof (normal_split w NP) as S. cbv zeta in S. unfold ln_work. rewrite extract_exponent_value_eq.
  set (Ex := bexp (to_bits w)) in *. set (M := bman (to_bits w)) in *. destruct S as (HE & HM & HT & HS & HV).
  pose proof (frac01 M HM) as HF. set (m := (IZR M / IZR (2 ^ 23))%R) in *.
  assert (E1 : 127 <= Ex).
  { apply Z.le_ngt. intros L. assert (bpow radix2 (Ex - 127) <= bpow radix2 (-1))%R by (apply bpow_le; lia).
    change (bpow radix2 (-1)) with (/ 2)%R in H0. pose proof (bpow_gt_0 radix2 (Ex - 127)).
    assert ((1 + m) * bpow radix2 (Ex - 127) <= (1 + m) * / 2)%R by (apply Rmult_le_compat_l; lra). lra. }
  assert (U : as_u32 (Ex - 127) = Ex - 127) by (unfold as_u32; apply Z.mod_small; lia). rewrite U.
  destruct (of_Z_small (Ex - 127) ltac:(lia)) as [Fe Ve]. set (e := f32_of_Z (Ex - 127)) in *.
  rewrite land_exp by (rewrite HT; lia). fold Ex.
  replace (Ex * 2 ^ 23) with (Ex * 2 ^ 23 + 0) by ring.
  destruct (mk_val Ex 0 ltac:(lia) ltac:(lia)) as (Fd & _ & _ & Vd). cbv zeta in *. set (d := from_bits (Ex * 2 ^ 23 + 0)) in *.
  replace (1 + 0 / IZR (2 ^ 23))%R with 1%R in Vd by (unfold Rdiv; ring). rewrite Rmult_1_l in Vd.
  pose proof (bpow_gt_0 radix2 (Ex - 127)) as PB.
  assert (Q : (val w / val d = 1 + m)%R) by (rewrite HV, Vd; field; lra).
  assert (Fm : rnd (1 + m) = (1 + m)%R).
  { apply rnd_fmt. replace (1 + m)%R with (IZR (2 ^ 23 + M) * bpow radix2 (-23))%R.
    - apply fmt_scaled; [rewrite Z.abs_eq by lia; lia|lia].
    - rewrite plus_IZR. unfold m. change (bpow radix2 (-23)) with (/ IZR (2 ^ 23))%R. field. apply IZR_neq. lia. }
  destruct (fdiv_R w d Fw Fd) as [Fy Vy]; [lra|rewrite Q; apply (small_lt_128 1); [lia|apply Rabs_le; bpow_lit; lra]|].
  rewrite Q, Fm in Vy. set (y := fdiv w d) in *.
  pose proof (poly_acc y Fy ltac:(lra)) as TP. set (P := ln_1to2_polynomial y) in *.
  pose proof (tr_const _ _ c_LN_2_val) as TL. rewrite Rabs_pos_eq in TL by lra.
  set (k := IZR (Ex - 127)) in *. assert (K : (0 <= k <= 127)%R) by (unfold k; split; apply IZR_le; lia).
  assert (TE : tr e k 127 0) by (rewrite <- Ve; apply tr_in; [exact Fe|rewrite Ve; apply Rabs_le; lra]).
  pose proof eta_tiny as ET.
  assert (b127 : (1000 <= bpow radix2 127)%R) by (apply Rle_trans with (bpow radix2 10); [bpow_lit; lra|apply bpow_le; lia]).
  assert (TM : tr (fmul e c_LN_2) (k * (11629080 / 16777216)) 88.1 0.00000526).
  { eapply tr_weaken; [apply (tr_mul _ _ _ _ _ _ _ _ TE TL); lra|lra|unfold u24; lra]. }
  assert (TS : tr (fadd (fmul e c_LN_2) P) (k * (11629080 / 16777216) + lnpoly (val y)) 88.8 0.0000134).
  { eapply tr_weaken; [apply (tr_add _ _ _ _ _ _ _ _ TM TP); lra|lra|unfold u24; lra]. }
  destruct TS as (F & _ & D). split; [exact F|].
  pose proof (lnpoly_ln (val y) ltac:(lra)) as DL. rewrite Vy in *.
  assert (LN : (ln (val w) = k * ln 2 + ln (1 + m))%R).
  { rewrite HV, Rmult_comm, ln_mult, ln_bpow by lra. reflexivity. }
  pose proof ln2_bounds as L2.
  assert (KL : (- 0.0000003 <= k * (11629080 / 16777216) - k * ln 2 <= 0.0000003)%R).
  { replace (k * (11629080 / 16777216) - k * ln 2)%R with (k * (11629080 / 16777216 - ln 2))%R by ring.
    assert (0 <= k * (11629080 / 16777216 - ln 2) <= 127 * 0.00000000191)%R; [|lra].
    split; [apply Rmult_le_pos; lra|apply Rmult_le_compat; lra]. }
  rewrite LN. apply Rabs_le_inv in D. apply Rabs_le_inv in DL. apply Rabs_le. lra.
Qed.

Lemma fsub_over : forall {E : Env} x y, fin x -> fin y -> (bpow radix2 128 <= Rabs (rnd (val x - val y)))%R ->
  is_finite (fsub x y) = false.
Proof.
  intros E x y Fx Fy H.
  pose proof (Bminus_correct 24 128 prec24 emax128 nan_sub mode_NE x y Fx Fy) as C.
  rewrite Rlt_bool_false in C by exact H. destruct C as [C _].
  fold (fsub x y) in C. unfold binary_overflow in C. simpl overflow_to_inf in C. cbv iota in C.
  destruct (fsub x y) as [s|s|s p K|s m e K]; simpl in C; try discriminate; reflexivity.
Qed.

Lemma abs_lt_fin : forall z e, fin e -> flt (F32_abs z) e = true -> fin z.
Proof.
  intros z e Fe H. destruct z as [s|s|s p K|s m f K]; try reflexivity; exfalso.
  - change (F32_abs (B754_infinity s)) with (F32_abs (f32_inf s)) in H. replace (F32_abs (f32_inf s)) with (f32_inf false) in H by (destruct s; reflexivity).
    destruct e as [t|t|t q L|t n g L]; try discriminate.
  - rewrite flt_nan in H; [discriminate|]. left. apply abs_nan. reflexivity.
Qed.

Lemma near_one : forall {E : Env} x, fin x -> flt (F32_abs (fsub x F32_ONE)) F32_EPSILON = true -> (Rabs (val x - 1) < / 8388608)%R.
Proof.
  intros E x Fx H. destruct one_val as [FO VO]. destruct eps_val as [Fe Ve]. pose proof (abs_lt_fin _ _ Fe H) as Fz.
  destruct (Rlt_or_le (Rabs (rnd (val x - val F32_ONE))) (bpow radix2 128)) as [L|L].
  2:{ pose proof (fsub_over x F32_ONE Fx FO L). unfold fin in Fz. congruence. }
  destruct (fsub_R x F32_ONE Fx FO L) as [F V]. rewrite VO in V.
  rewrite flt_R, abs_val, Ve, V in H by (trivial; unfold fin; rewrite abs_fin; exact F).
  destruct (Rlt_bool_spec (Rabs (rnd (val x - 1))) (/ 8388608)) as [C|C]; [|discriminate].
  apply Rnot_le_lt. intros G.
  assert (I : (/ 8388608 <= Rabs (rnd (val x - 1)))%R); [|lra].
  change (/ 8388608)%R with (bpow radix2 (-23)) in *.
  apply abs_round_ge_generic; try typeclasses eauto; [apply (fmt_bpow (-23)); lia|lra].
Qed.

Lemma ln_near_one : forall x, (Rabs (x - 1) < / 8388608)%R -> (Rabs (ln x) <= 0.0000002)%R.
Proof.
  intros x H. apply Rabs_lt_inv in H.
  assert (U : forall z, (-1 < z)%R -> (ln (1 + z) <= z)%R).
  { intros z Hz. rewrite <- (ln_exp z) at 2. destruct (Req_EM_T z 0) as [Z|Z]; [subst; rewrite exp_0, Rplus_0_r; lra|].
    left. apply ln_increasing; [lra|]. apply exp_ineq1. exact Z. }
  pose proof (U (x - 1)%R ltac:(lra)) as U1. replace (1 + (x - 1))%R with x in U1 by ring.
  assert (I : (0 < / x)%R) by (apply Rinv_0_lt_compat; lra).
  pose proof (U (/ x - 1)%R ltac:(lra)) as U2. replace (1 + (/ x - 1))%R with (/ x)%R in U2 by ring. rewrite ln_Rinv in U2 by lra.
  assert (/ x - 1 <= 0.0000002)%R.
  { apply Rmult_le_reg_r with x; [lra|]. replace ((/ x - 1) * x)%R with (1 - x)%R by (field; lra). lra. }
  apply Rabs_le. lra.
Qed.

Lemma ln_acc_ge1 : forall {E : Env} x, fin x -> (1 <= val x)%R ->
  fin (F32_ln x) /\ (Rabs (val (F32_ln x) - ln (val x)) <= 0.0000761)%R.
Proof.
  intros E x Fx H. rewrite ln_eq. destruct (flt (F32_abs _) _) eqn:N.
  - pose proof (ln_near_one _ (near_one x Fx N)) as L. destruct zero_val as [FZ VZ]. split; [exact FZ|]. rewrite VZ.
    apply Rabs_le_inv in L. apply Rabs_le. lra.
  - destruct one_val as [FO VO]. rewrite flt_R, VO, Rlt_bool_false by assumption. apply ln_work_acc; assumption.
Qed.

Lemma ln_acc_lt1 : forall {E : Env} x, normal_pos x -> (val x < 1)%R ->
  fin (F32_ln x) /\ (- 0.11786 <= val (F32_ln x) - ln (val x) <= 0.0000761)%R.
Proof.
  intros E x Nx H. destruct Nx as [Fx Px]. rewrite ln_eq. destruct (flt (F32_abs _) _) eqn:N.
  - pose proof (ln_near_one _ (near_one x Fx N)) as L. destruct zero_val as [FZ VZ]. split; [exact FZ|]. rewrite VZ.
    apply Rabs_le_inv in L. lra.
  - destruct one_val as [FO VO]. rewrite flt_R, VO, Rlt_bool_true by assumption.
    pose proof (normal_pos_gt0 x (conj Fx Px)) as P0.
    destruct (inv_accuracy x (conj Fx Px)) as [[Fi Ni] [I1 I2]].
    { apply Rle_trans with 1%R; [lra|]. change 1%R with (bpow radix2 0). apply bpow_le; lia. }
    pose proof (normal_pos_gt0 _ (conj Fi Ni)) as Pi. set (i := F32_inv x) in *.
    assert (Gi : (1 <= val i)%R).
    { apply Rnot_lt_le. intros C. assert (val x * val i <= val x * 1)%R by (apply Rmult_le_compat_l; lra). lra. }
    destruct (ln_work_acc i Fi Gi) as [Fw Dw]. split; [apply fneg_fin; exact Fw|]. rewrite fneg_val.
    assert (LM : (ln (val x) + ln (val i) = ln (val x * val i))%R) by (rewrite ln_mult; lra).
    assert (L0 : (0 <= ln (val x * val i) <= ln (9 / 8))%R).
    { rewrite <- ln_1 at 1. split; [destruct I1 as [I1|I1]; [left; apply ln_increasing; lra|rewrite <- I1; lra]|].
      destruct I2 as [I2|I2]; [left; apply ln_increasing; lra|rewrite I2; lra]. }
    pose proof ln_9_8. apply Rabs_le_inv in Dw. lra.
Qed.

(** ** Edge values of ln *)

Lemma poly_nan : forall {E : Env} y, nan y -> nan (ln_1to2_polynomial y).
Proof. intros E y N. unfold ln_1to2_polynomial. apply fadd_nan. right. apply fmul_nan. right. exact N. Qed.

Lemma ln_work_nan : forall {E : Env} w d, nan (fdiv w d) -> d = from_bits (Z.land (to_bits w) EXPONENT_MASK) -> nan (ln_work w).
Proof. intros E w d N ->. unfold ln_work. apply fadd_nan. right. apply poly_nan. exact N. Qed.

Lemma ln_nan : forall {E : Env} x, nan x -> nan (F32_ln x).
Proof.
  intros E x N. rewrite ln_eq. rewrite flt_nan by (left; apply abs_nan, fsub_nan; left; exact N).
  rewrite flt_nan by (left; exact N). eapply ln_work_nan; [|reflexivity]. apply fdiv_nan. left. exact N.
Qed.

Lemma ln_inf : forall {E : Env}, nan (F32_ln (f32_inf false)).
Proof.
  intros E. rewrite ln_eq. replace (flt (F32_abs (fsub (f32_inf false) F32_ONE)) F32_EPSILON) with false by (vm_compute; reflexivity).
  replace (flt (f32_inf false) F32_ONE) with false by (vm_compute; reflexivity).
  apply (ln_work_nan _ (f32_inf false)); [apply build_nan_nan|]. apply to_bits_inj; vm_compute; reflexivity.
Qed.

Lemma ln_work_zero : forall {E : Env} s, nan (ln_work (f32_zero s)).
Proof.
  intros E s. apply (ln_work_nan _ (f32_zero false)); [destruct s; apply build_nan_nan|]. destruct s; apply to_bits_inj; vm_compute; reflexivity.
Qed.

(** The logarithm of anything with the sign bit set is NaN. *)
Lemma ln_negative : forall {E : Env} x, sign_bit x = true -> nan (F32_ln x).
Proof.
  intros E x S. destruct (is_nan x) eqn:N; [apply ln_nan; exact N|].
  assert (B : 2 ^ 31 <= to_bits x).
  { pose proof (fneg_bits x) as Q. rewrite S in Q. pose proof (nonneg_bits (fneg x)) as P. rewrite fneg_is_nan, fneg_sign, S in P.
    specialize (P N eq_refl). lia. }
  rewrite ln_eq. destruct (flt (F32_abs _) _) eqn:L.
  - exfalso. destruct (is_finite x) eqn:F.
    + apply near_one in L; [|exact F]. apply Rabs_lt_inv in L. pose proof (sign_val x F) as V. rewrite S in V. lra.
    + destruct x as [t|t|t p K|t m e K]; try discriminate. destruct t; [|discriminate S]. vm_compute in L. discriminate L.
  - assert (T : flt x F32_ONE = true).
    { destruct (is_finite x) eqn:F.
      - destruct one_val as [FO VO]. rewrite flt_R, VO by assumption. apply Rlt_bool_true. pose proof (sign_val x F) as V. rewrite S in V. lra.
      - destruct x as [t|t|t p K|t m e K]; try discriminate. destruct t; [reflexivity|discriminate S]. }
    rewrite T. apply fneg_nan. unfold F32_inv. cbv zeta.
    replace (0 <=? 0x7F000000 - to_bits x) with false by (symmetry; apply Z.leb_gt; lia).
    destruct (is_infinite x); [rewrite S; apply ln_work_zero|]. rewrite N. apply ln_work_zero.
Qed.

Lemma ln_zero : forall {E : Env}, F32_ln (f32_zero false) = from_bits 0xC2B00F3C.
Proof. intros E. apply to_bits_inj; vm_compute; reflexivity. Qed.

(** Below the normal range the result stays in [-88.03, -87.33]. *)
Lemma ln_subnormal : forall {E : Env} x, fin x -> sign_bit x = false -> (val x < bpow radix2 (-126))%R ->
  fin (F32_ln x) /\ (- 88.03 <= val (F32_ln x) <= - 87.33)%R.
Proof.
  intros E x F S H. rewrite ln_eq. pose proof (sign_val x F) as P. rewrite S in P.
  assert (HS : (val x < / 2)%R).
  { apply Rlt_le_trans with (1 := H). change (/ 2)%R with (bpow radix2 (-1)). apply bpow_le; lia. }
  destruct (flt (F32_abs _) _) eqn:N; [exfalso; apply near_one in N; [|exact F]; apply Rabs_lt_inv in N; lra|].
  destruct one_val as [FO VO]. rewrite flt_R, VO, Rlt_bool_true by (trivial; lra).
  pose proof (nonneg_bits x (fin_not_nan x F) S) as B.
  assert (B1 : to_bits x <= 0x800000).
  { destruct (pos_bits 0x800000 ltac:(lia)) as (C1 & C2 & C3). pose proof (fle_bits x (from_bits 0x800000) (fin_not_nan x F) C1 S C2) as L.
    rewrite C3, fle_R in L by (trivial; reflexivity). replace (val (from_bits 0x800000)) with (bpow radix2 (-126)) in L.
    - rewrite Rle_bool_true in L by lra. symmetry in L. apply Z.leb_le in L. exact L.
    - lit 0x800000. rewrite <- (Rmult_1_l (bpow radix2 (-126))). replace (bpow radix2 (-126)) with (bpow radix2 23 * bpow radix2 (-149))%R by (rewrite <- bpow_plus; reflexivity).
      bpow_lit. lra. }
  rewrite inv_bits by lia. assert (Bb : 0x7E800000 <= 0x7F000000 - to_bits x <= 0x7F000000) by lia. set (b := 0x7F000000 - to_bits x) in *. clearbody b.
  destruct (pos_bits b ltac:(lia)) as (C1 & C2 & C3). destruct (pos_bits 0x7F000000 ltac:(lia)) as (D1 & D2 & D3).
  destruct (pos_bits 0x7E800000 ltac:(lia)) as (G1 & G2 & G3). set (i := from_bits b) in *. clearbody i.
  assert (Fi : fin i).
  { destruct (is_finite i) eqn:K; [exact K|exfalso]. assert (i = f32_inf false).
    { destruct i as [t|t|t p K'|t m e K']; try discriminate. simpl in C2. subst t. reflexivity. }
    rewrite H0 in C3. change (to_bits (f32_inf false)) with 2139095040 in C3. lia. }
  pose proof (fle_bits i (from_bits 0x7F000000) C1 D1 C2 D2) as L1. pose proof (fle_bits (from_bits 0x7E800000) i G1 C1 G2 C2) as L2.
  rewrite C3, D3, fle_R in L1 by (trivial; reflexivity). rewrite C3, G3, fle_R in L2 by (trivial; reflexivity).
  assert (V1 : val (from_bits 0x7F000000) = bpow radix2 127).
  { destruct (mk_val 254 0 ltac:(lia) ltac:(lia)) as (_ & _ & _ & V). cbv zeta in V. change (254 * 2 ^ 23 + 0) with 0x7F000000 in V. rewrite V.
    unfold Rdiv. rewrite Rmult_0_l, Rplus_0_r, Rmult_1_l. reflexivity. }
  assert (V2 : val (from_bits 0x7E800000) = bpow radix2 126).
  { destruct (mk_val 253 0 ltac:(lia) ltac:(lia)) as (_ & _ & _ & V). cbv zeta in V. change (253 * 2 ^ 23 + 0) with 0x7E800000 in V. rewrite V.
    unfold Rdiv. rewrite Rmult_0_l, Rplus_0_r, Rmult_1_l. reflexivity. }
  rewrite V1 in L1. rewrite V2 in L2.
  replace (b <=? 0x7F000000) with true in L1 by (symmetry; apply Z.leb_le; lia).
  replace (0x7E800000 <=? b) with true in L2 by (symmetry; apply Z.leb_le; lia).
  assert (R1 : (val i <= bpow radix2 127)%R) by (destruct (Rle_bool_spec (val i) (bpow radix2 127)); [assumption|discriminate]).
  assert (R2 : (bpow radix2 126 <= val i)%R) by (destruct (Rle_bool_spec (bpow radix2 126) (val i)); [assumption|discriminate]).
  assert (G : (1 <= val i)%R) by (apply Rle_trans with (2 := R2); change 1%R with (bpow radix2 0); apply bpow_le; lia).
  destruct (ln_work_acc i Fi G) as [Fw Dw]. split; [apply fneg_fin; exact Fw|]. rewrite fneg_val.
  assert (M : forall a c, (0 < a)%R -> (a <= c)%R -> (ln a <= ln c)%R).
  { intros a c Pa [K|K]; [left; apply ln_increasing; lra|rewrite K; lra]. }
  pose proof (M _ _ (bpow_gt_0 radix2 126) R2) as M1. assert (Pi0 : (0 < val i)%R) by lra. pose proof (M _ _ Pi0 R1) as M2. rewrite ln_bpow in M1, M2.
  pose proof ln2_bounds. apply Rabs_le_inv in Dw. lra.
Qed.

(** ln of the smallest subnormal: -88.03 instead of -103.28. *)
Lemma ln_subnormal_wrong : forall {E : Env}, exists x, fin x /\ (0 < val x)%R /\ fin (F32_ln x) /\
  (val (F32_ln x) - ln (val x) > 15)%R.
Proof.
  intros E. exists (from_bits 1).
  assert (V : fin (from_bits 1) /\ val (from_bits 1) = bpow radix2 (-149)) by (lit 1; split; [reflexivity|ring]).
  destruct V as [F V]. destruct (ln_subnormal (from_bits 1) F eq_refl) as [Fl Bl].
  { rewrite V. apply bpow_lt; lia. }
  split; [exact F|]. split; [rewrite V; apply bpow_gt_0|]. split; [exact Fl|]. rewrite V, ln_bpow. pose proof ln2_bounds. lra.
Qed.

(** The error below 1 really is of the order of 0.1177. *)
Lemma ln_small_error : forall {E : Env}, exists x, fin x /\ val x = 0.75%R /\ fin (F32_ln x) /\
  (val (F32_ln x) - ln (val x) < - 0.117)%R.
Proof.
  intros E. exists (from_bits 0x3F400000).
  assert (R : F32_ln (from_bits 0x3F400000) = from_bits 0xBECF96E8) by (apply to_bits_inj; vm_compute; reflexivity).
  assert (V : val (from_bits 0x3F400000) = 0.75%R) by (lit 0x3F400000; bpow_lit; lra).
  rewrite R, V. lit 0xBECF96E8. split; [reflexivity|]. split; [reflexivity|]. split; [reflexivity|].
  pose proof ln_at_0_75. bpow_lit. lra.
Qed.

(** ** log2, log10, log *)

Lemma log_scale : forall {E : Env} L c C, fin L -> fin c -> (Rabs (val L) <= 89)%R -> (0 <= C <= 1.5)%R ->
  (Rabs (val c - C) <= 0.00000002)%R -> fin (fmul L c) /\ (Rabs (val (fmul L c) - val L * C) <= 0.00001)%R.
Proof.
  intros E L c C FL Fc HL HC D. pose proof eta_tiny as ET.
  assert (b127 : (1000 <= bpow radix2 127)%R) by (apply Rle_trans with (bpow radix2 10); [bpow_lit; lra|apply bpow_le; lia]).
  assert (TL : tr L (val L) 89 0) by (apply tr_in; assumption).
  assert (TC : tr c C 1.5 0.00000002) by (split; [exact Fc|split; [apply Rabs_le; lra|exact D]]).
  destruct (tr_weaken _ _ _ _ 134 0.00001 (tr_mul _ _ _ _ _ _ _ _ TL TC ltac:(lra)) ltac:(lra) ltac:(unfold u24; lra)) as (F & _ & K).
  split; assumption.
Qed.

Lemma ln_val_range : forall x, fin x -> (1 <= val x)%R -> (0 <= ln (val x) <= 88.73)%R.
Proof.
  intros x F H. split.
  - rewrite <- ln_1. destruct H as [H|H]; [left; apply ln_increasing; lra|rewrite <- H; lra].
  - pose proof (abs_B2R_lt_emax 24 128 x) as B. change (Rabs (val x) < bpow radix2 128)%R in B. rewrite Rabs_pos_eq in B by lra.
    left. apply Rlt_trans with (ln (bpow radix2 128)); [apply ln_increasing; lra|]. rewrite ln_bpow. pose proof ln2_bounds. lra.
Qed.

Lemma ln_val_range_lt1 : forall x, normal_pos x -> (val x < 1)%R -> (- 87.34 <= ln (val x) <= 0)%R.
Proof.
  intros x [F H] L. pose proof (bpow_gt_0 radix2 (-126)) as B. split.
  - apply Rle_trans with (ln (bpow radix2 (-126))); [rewrite ln_bpow; pose proof ln2_bounds; lra|].
    destruct H as [H|H]; [left; apply ln_increasing; lra|rewrite <- H; lra].
  - rewrite <- ln_1. left. apply ln_increasing; lra.
Qed.

Lemma log2_acc_ge1 : forall {E : Env} x, fin x -> (1 <= val x)%R ->
  fin (F32_log2 x) /\ (Rabs (val (F32_log2 x) - ln (val x) / ln 2) <= 0.00012)%R.
Proof.
  intros E x F H. destruct (ln_acc_ge1 x F H) as [FL DL]. pose proof (ln_val_range x F H) as R. unfold F32_log2.
  destruct c_LOG2_E_val as [Fc Vc]. pose proof log2e_bounds as LB. apply Rabs_le_inv in DL.
  destruct (log_scale (F32_ln x) c_LOG2_E (/ ln 2) FL Fc) as [A B]; [apply Rabs_le; lra|lra|rewrite Vc; apply Rabs_le; lra|].
  split; [exact A|]. apply Rabs_le_inv in B. unfold Rdiv.
  assert (K : (Rabs ((val (F32_ln x) - ln (val x)) * / ln 2) <= 0.0000761 * 1.442696)%R).
  { rewrite Rabs_mult. apply Rmult_le_compat; try apply Rabs_pos; apply Rabs_le; lra. }
  apply Rabs_le_inv in K. apply Rabs_le. lra.
Qed.

Lemma log10_acc_ge1 : forall {E : Env} x, fin x -> (1 <= val x)%R ->
  fin (F32_log10 x) /\ (Rabs (val (F32_log10 x) - ln (val x) / ln 10) <= 0.000044)%R.
Proof.
  intros E x F H. destruct (ln_acc_ge1 x F H) as [FL DL]. pose proof (ln_val_range x F H) as R. unfold F32_log10.
  destruct c_LOG10_E_val as [Fc Vc]. pose proof log10e_bounds as LB. apply Rabs_le_inv in DL.
  destruct (log_scale (F32_ln x) c_LOG10_E (/ ln 10) FL Fc) as [A B]; [apply Rabs_le; lra|lra|rewrite Vc; apply Rabs_le; lra|].
  split; [exact A|]. apply Rabs_le_inv in B. unfold Rdiv.
  assert (K : (Rabs ((val (F32_ln x) - ln (val x)) * / ln 10) <= 0.0000761 * 0.4343)%R).
  { rewrite Rabs_mult. apply Rmult_le_compat; try apply Rabs_pos; apply Rabs_le; lra. }
  apply Rabs_le_inv in K. apply Rabs_le. lra.
Qed.

Lemma log2_acc_lt1 : forall {E : Env} x, normal_pos x -> (val x < 1)%R ->
  fin (F32_log2 x) /\ (- 0.1701 <= val (F32_log2 x) - ln (val x) / ln 2 <= 0.00012)%R.
Proof.
  intros E x N H. destruct (ln_acc_lt1 x N H) as [FL DL]. pose proof (ln_val_range_lt1 x N H) as R. unfold F32_log2.
  destruct c_LOG2_E_val as [Fc Vc]. pose proof log2e_bounds as LB.
  destruct (log_scale (F32_ln x) c_LOG2_E (/ ln 2) FL Fc) as [A B]; [apply Rabs_le; lra|lra|rewrite Vc; apply Rabs_le; lra|].
  split; [exact A|]. apply Rabs_le_inv in B. unfold Rdiv.
  assert (K : (- (0.11786 * 1.442696) <= (val (F32_ln x) - ln (val x)) * / ln 2 <= 0.0000761 * 1.442696)%R).
  { set (d := (val (F32_ln x) - ln (val x))%R) in *. set (l := (/ ln 2)%R) in *. 
    assert ((0.11786 + d) * l >= 0)%R by (apply Rle_ge, Rmult_le_pos; lra).
    assert ((0.0000761 - d) * l >= 0)%R by (apply Rle_ge, Rmult_le_pos; lra). lra. }
  lra.
Qed.

Lemma log10_acc_lt1 : forall {E : Env} x, normal_pos x -> (val x < 1)%R ->
  fin (F32_log10 x) /\ (- 0.0512 <= val (F32_log10 x) - ln (val x) / ln 10 <= 0.000044)%R.
Proof.
  intros E x N H. destruct (ln_acc_lt1 x N H) as [FL DL]. pose proof (ln_val_range_lt1 x N H) as R. unfold F32_log10.
  destruct c_LOG10_E_val as [Fc Vc]. pose proof log10e_bounds as LB.
  destruct (log_scale (F32_ln x) c_LOG10_E (/ ln 10) FL Fc) as [A B]; [apply Rabs_le; lra|lra|rewrite Vc; apply Rabs_le; lra|].
  split; [exact A|]. apply Rabs_le_inv in B. unfold Rdiv.
  assert (K : (- (0.11786 * 0.4343) <= (val (F32_ln x) - ln (val x)) * / ln 10 <= 0.0000761 * 0.4343)%R).
  { set (d := (val (F32_ln x) - ln (val x))%R) in *. set (l := (/ ln 10)%R) in *. 
    assert ((0.11786 + d) * l >= 0)%R by (apply Rle_ge, Rmult_le_pos; lra).
    assert ((0.0000761 - d) * l >= 0)%R by (apply Rle_ge, Rmult_le_pos; lra). lra. }
  lra.
Qed.

(** log(x, b) for x >= 1 and b >= 2. *)
Lemma log_acc : forall {E : Env} x b, fin x -> fin b -> (1 <= val x)%R -> (2 <= val b)%R ->
  fin (F32_log x b) /\
  (Rabs (val (F32_log x b) - ln (val x) / ln (val b)) <= 0.00012 * (1 + ln (val x) / ln (val b)))%R.
Proof.
  intros E x b Fx Fb Hx Hb. destruct (ln_acc_ge1 x Fx Hx) as [FX DX]. destruct (ln_acc_ge1 b Fb ltac:(lra)) as [FB DB].
  pose proof (ln_val_range x Fx Hx) as RX. pose proof (ln_val_range b Fb ltac:(lra)) as RB.
  assert (L2 : (ln 2 <= ln (val b))%R) by (destruct Hb as [Hb|Hb]; [left; apply ln_increasing; lra|rewrite <- Hb; lra]).
  pose proof ln2_bounds as B2. unfold F32_log. destruct one_val as [FO VO].
  set (lx := F32_ln x) in *. set (lb := F32_ln b) in *. set (X := ln (val x)) in *. set (B := ln (val b)) in *.
  apply Rabs_le_inv in DX. apply Rabs_le_inv in DB.
  assert (PB : (0.693 <= val lb <= 89)%R) by lra.
  (* 1 / ln b *)
  assert (IB : (0.0112 <= 1 / val lb <= 1.4431)%R).
  { unfold Rdiv. rewrite Rmult_1_l. split.
    - rewrite <- (Rinv_inv 0.0112). apply Rinv_le; lra.
    - rewrite <- (Rinv_inv 1.4431). apply Rinv_le; lra. }
  destruct (fdiv_R F32_ONE lb FO FB) as [Fi Vi]; [lra|rewrite VO; apply (small_lt_128 1); [lia|apply Rabs_le; bpow_lit; lra]|].
  rewrite VO in Vi. set (i := fdiv F32_ONE lb) in *.
  destruct (rnd_rel_d (1 / val lb)) as (d & Ed & Bd).
  { rewrite Rabs_pos_eq by lra. apply Rle_trans with (bpow radix2 (-10)); [apply bpow_le; lia|bpow_lit; lra]. }
  rewrite Ed in Vi. change (bpow radix2 (-24)) with (/ 16777216)%R in Bd. apply Rabs_le_inv in Bd.
  assert (Bi : (0 <= val i <= 1.4432)%R).
  { rewrite Vi. split; [apply Rmult_le_pos; lra|]. apply Rle_trans with (1.4431 * (1 + / 16777216))%R; [apply Rmult_le_compat; lra|lra]. }
  assert (M : (Rabs (val i * val lx) <= bpow radix2 8)%R).
  { rewrite Rabs_mult. bpow_lit. apply Rle_trans with (1.4432 * 89)%R; [apply Rmult_le_compat; try apply Rabs_pos; apply Rabs_le; lra|lra]. }
  destruct (fmul_R i lx Fi FX (small_lt_128 8 _ ltac:(lia) M)) as [Fr Vr]. split; [exact Fr|].
  pose proof (rnd_err_mixed (val i * val lx)) as R. rewrite <- Vr in R. 
  assert (ET : (bpow radix2 (-150) <= 0.000000000001)%R) by (apply Rle_trans with (bpow radix2 (-50)); [apply bpow_le; lia|bpow_lit; lra]).
  change (bpow radix2 (-24)) with (/ 16777216)%R in R.
  (* exact quotient *)
  set (q := (X / B)%R).
  assert (Q0 : (0 <= q)%R) by (apply Rmult_le_pos; [lra|apply Rlt_le, Rinv_0_lt_compat; lra]).
  set (r := (B / val lb)%R).
  assert (Rr : (Rabs (r - 1) <= 0.00011)%R).
  { unfold r. replace (B / val lb - 1)%R with ((B - val lb) * / val lb)%R by (field; lra). rewrite Rabs_mult, Rabs_inv, (Rabs_pos_eq (val lb)) by lra.
    apply Rle_trans with (0.0000761 * 1.4431)%R; [|lra]. apply Rmult_le_compat; [apply Rabs_pos|apply Rlt_le, Rinv_0_lt_compat; lra|apply Rabs_le; lra|].
    unfold Rdiv in IB. lra. }
  assert (P : (val i * val lx = q * (r * (1 + d)) + (val lx - X) * val i)%R).
  { rewrite Vi. unfold q, r. field. split; lra. }
  assert (S1 : (Rabs (r * (1 + d) - 1) <= 0.0001101)%R).
  { apply Rabs_le_inv in Rr. replace (r * (1 + d) - 1)%R with (r - 1 + r * d)%R by ring.
    assert (Rabs (r * d) <= 1.1 * / 16777216)%R by (rewrite Rabs_mult; apply Rmult_le_compat; try apply Rabs_pos; apply Rabs_le; lra).
    apply Rabs_le_inv in H. apply Rabs_le. lra. }
  assert (S2 : (Rabs ((val lx - X) * val i) <= 0.0000761 * 1.4432)%R).
  { rewrite Rabs_mult. apply Rmult_le_compat; try apply Rabs_pos; apply Rabs_le; lra. }
  assert (S3 : (Rabs (val i * val lx - q) <= 0.0001101 * q + 0.00010983)%R).
  { rewrite P. replace (q * (r * (1 + d)) + (val lx - X) * val i - q)%R with (q * (r * (1 + d) - 1) + (val lx - X) * val i)%R by ring.
    eapply Rle_trans; [apply Rabs_triang|]. rewrite Rabs_mult, (Rabs_pos_eq q) by exact Q0.
    assert (q * Rabs (r * (1 + d) - 1) <= q * 0.0001101)%R by (apply Rmult_le_compat_l; assumption). lra. }
  assert (S4 : (Rabs (val i * val lx) <= q + (0.0001101 * q + 0.00010983))%R).
  { replace (val i * val lx)%R with (q + (val i * val lx - q))%R by ring. eapply Rle_trans; [apply Rabs_triang|]. rewrite (Rabs_pos_eq q) by exact Q0. lra. }
  replace (val (fmul i lx) - q)%R with ((val (fmul i lx) - val i * val lx) + (val i * val lx - q))%R by ring.
  eapply Rle_trans; [apply Rabs_triang|]. lra.
Qed.
