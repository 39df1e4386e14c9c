(** * exp: the series, the exponent arithmetic, accuracy and limits *)

From Coq Require Import ZArith Reals Bool List Lia Lra.
From Flocq Require Import Core IEEE754.BinarySingleNaN IEEE754.Binary IEEE754.Bits.
From Verif Require Import Base Spec Float F32Lemmas BitLemmas Literals ErrLemmas NanLemmas
  RealBounds RealBounds4 P_Trunc P_Floor P_RoundEdge P_Euclid P_Roots P_InvSqrt P_SumSq P_Quat P_Trig P_Atan P_Atan2 P_Ln.
Open Scope Z_scope.

(** ** The series *)

Lemma smallx_step : forall {E : Env} r c k t T e, fin r -> (Rabs (val r) <= 0.6932)%R ->
  fin c -> val c = k -> (1 <= k)%R -> fin t -> (Rabs T <= 1.9)%R -> (Rabs (val t - T) <= e)%R -> (e <= 0.01)%R ->
  let t' := fadd F32_ONE (fmul (fdiv r c) t) in
  fin t' /\ (Rabs (val t' - (1 + val r / k * T)) <= 0.6932 * e + 0.00000025)%R.
Proof.
  intros E r c k t T e Fr Br Fc Vc Hk Ft BT Dt He t'. unfold t'.
  destruct one_val as [FO VO].
  assert (Q : (Rabs (val r / k) <= 0.6932)%R).
  { unfold Rdiv. rewrite Rabs_mult, Rabs_inv, (Rabs_pos_eq k) by lra. replace 0.6932%R with (0.6932 * / 1)%R by lra.
    apply Rmult_le_compat; [apply Rabs_pos|apply Rlt_le, Rinv_0_lt_compat; lra|exact Br|apply Rinv_le; lra]. }
  destruct (fdiv_e 0 r c Fr Fc) as (e1 & F1 & V1 & B1); [lra|lia|rewrite Vc; bpow_lit; lra|]. rewrite Vc in V1.
  set (q := fdiv r c) in *. clearbody q. change (0 - 25) with (-25) in B1.
  assert (Bt : (Rabs (val t) <= 1.91)%R).
  { replace (val t) with (T + (val t - T))%R by ring. eapply Rle_trans; [apply Rabs_triang|]. lra. }
  assert (Bq : (Rabs (val q) <= 0.6933)%R).
  { rewrite V1. eapply Rle_trans; [apply Rabs_triang|]. revert B1. bpow_lit. intros B1. lra. }
  assert (P : (Rabs (val q * val t) <= 1.33)%R).
  { rewrite Rabs_mult. apply Rle_trans with (0.6933 * 1.91)%R; [apply Rmult_le_compat; try apply Rabs_pos; assumption|lra]. }
  destruct (fmul_e 1 q t F1 Ft) as (e2 & F2 & V2 & B2); [lia|bpow_lit; lra|]. 
  set (p := fmul q t) in *. clearbody p. change (1 - 25) with (-24) in B2.
  destruct (fadd_e 2 F32_ONE p FO F2) as (e3 & F3 & V3 & B3); [lia| |].
  { rewrite VO, V2. revert B2. bpow_lit. intros B2. apply Rabs_le_inv in B2. apply Rabs_le_inv in P. apply Rabs_le. lra. }
  change (2 - 25) with (-23) in B3. split; [exact F3|]. rewrite V3, VO, V2, V1.
  replace (1 + ((val r / k + e1) * val t + e2) + e3 - (1 + val r / k * T))%R
    with (val r / k * (val t - T) + e1 * val t + e2 + e3)%R by ring.
  assert (S1 : (Rabs (val r / k * (val t - T)) <= 0.6932 * e)%R).
  { rewrite Rabs_mult. apply Rmult_le_compat; try apply Rabs_pos; assumption. }
  assert (S2 : (Rabs (e1 * val t) <= bpow radix2 (-25) * 1.91)%R).
  { rewrite Rabs_mult. apply Rmult_le_compat; try apply Rabs_pos; assumption. }
  revert S2 B2 B3. bpow_lit. intros S2 B2 B3.
  apply Rabs_le_inv in S1. apply Rabs_le_inv in S2. apply Rabs_le_inv in B2. apply Rabs_le_inv in B3. apply Rabs_le. lra.
Qed.

Lemma smallx_unfold : forall {E : Env} r, F32_exp_smallx r 4 =
  fadd F32_ONE (fmul (fdiv r (f32_of_Z 1)) (fadd F32_ONE (fmul (fdiv r (f32_of_Z 2))
    (fadd F32_ONE (fmul (fdiv r (f32_of_Z 3)) (fadd F32_ONE (fmul (fdiv r (f32_of_Z 4)) F32_ONE))))))).
Proof. reflexivity. Qed.

Lemma smallx_acc : forall {E : Env} r, fin r -> (Rabs (val r) <= 0.6932)%R ->
  fin (F32_exp_smallx r 4) /\ (Rabs (val (F32_exp_smallx r 4) - expp (val r)) <= 0.0000007)%R.
Proof.
  intros E r Fr Br. rewrite smallx_unfold. destruct one_val as [FO VO]. unfold expp.
  destruct (of_Z_small 1 ltac:(lia)) as [G1 W1]. destruct (of_Z_small 2 ltac:(lia)) as [G2 W2].
  destruct (of_Z_small 3 ltac:(lia)) as [G3 W3]. destruct (of_Z_small 4 ltac:(lia)) as [G4 W4].
  set (c1 := f32_of_Z 1) in *. set (c2 := f32_of_Z 2) in *. set (c3 := f32_of_Z 3) in *. set (c4 := f32_of_Z 4) in *.
  clearbody c1 c2 c3 c4. apply Rabs_le_inv in Br as Br'.
  destruct (smallx_step r c4 4 F32_ONE 1 0 Fr Br G4 W4 ltac:(lra) FO) as [F4 D4]; [apply Rabs_le; lra|rewrite VO; apply Rabs_le; lra|lra|].
  cbv zeta in F4, D4. set (t4 := fadd F32_ONE (fmul (fdiv r c4) F32_ONE)) in *. clearbody t4.
  set (T4 := (1 + val r / 4 * 1)%R) in *.
  assert (R4 : (0.82 <= T4 <= 1.18)%R) by (unfold T4; lra).
  destruct (smallx_step r c3 3 t4 T4 0.00000025 Fr Br G3 W3 ltac:(lra) F4) as [F3 D3]; [apply Rabs_le; lra|lra|lra|].
  cbv zeta in F3, D3. set (t3 := fadd F32_ONE (fmul (fdiv r c3) t4)) in *. clearbody t3.
  set (T3 := (1 + val r / 3 * T4)%R) in *.
  assert (R3 : (0.7 <= T3 <= 1.3)%R).
  { assert (K : (Rabs (val r / 3 * T4) <= 0.2311 * 1.18)%R) by (rewrite Rabs_mult; apply Rmult_le_compat; try apply Rabs_pos; apply Rabs_le; lra).
    apply Rabs_le_inv in K. unfold T3. lra. }
  destruct (smallx_step r c2 2 t3 T3 0.00000043 Fr Br G2 W2 ltac:(lra) F3) as [F2 D2]; [apply Rabs_le; lra|lra|lra|].
  cbv zeta in F2, D2. set (t2 := fadd F32_ONE (fmul (fdiv r c2) t3)) in *. clearbody t2.
  set (T2 := (1 + val r / 2 * T3)%R) in *.
  assert (R2 : (0.5 <= T2 <= 1.5)%R).
  { assert (K : (Rabs (val r / 2 * T3) <= 0.3466 * 1.3)%R) by (rewrite Rabs_mult; apply Rmult_le_compat; try apply Rabs_pos; apply Rabs_le; lra).
    apply Rabs_le_inv in K. unfold T2. lra. }
  destruct (smallx_step r c1 1 t2 T2 0.00000055 Fr Br G1 W1 ltac:(lra) F2) as [F1 D1]; [apply Rabs_le; lra|lra|lra|].
  cbv zeta in F1, D1. split; [exact F1|]. eapply Rle_trans; [exact D1|lra].
Qed.

(** Sign of the correction term. *)
Lemma smallx_sides : forall {E : Env} r, fin r -> (Rabs (val r) <= 0.6932)%R ->
  ((0 <= val r)%R -> (1 <= val (F32_exp_smallx r 4))%R) /\ ((val r <= 0)%R -> (val (F32_exp_smallx r 4) <= 1)%R).
Proof.
  intros E r Fr Br. rewrite smallx_unfold. destruct one_val as [FO VO]. 
  destruct (of_Z_small 1 ltac:(lia)) as [G1 W1]. destruct (of_Z_small 2 ltac:(lia)) as [G2 W2].
  destruct (of_Z_small 3 ltac:(lia)) as [G3 W3]. destruct (of_Z_small 4 ltac:(lia)) as [G4 W4].
  set (c1 := f32_of_Z 1) in *. set (c2 := f32_of_Z 2) in *. set (c3 := f32_of_Z 3) in *. set (c4 := f32_of_Z 4) in *.
  clearbody c1 c2 c3 c4. apply Rabs_le_inv in Br as Br'.
  destruct (smallx_step r c4 4 F32_ONE 1 0 Fr Br G4 W4 ltac:(lra) FO) as [F4 D4]; [apply Rabs_le; lra|rewrite VO; apply Rabs_le; lra|lra|].
  cbv zeta in F4, D4. set (t4 := fadd F32_ONE (fmul (fdiv r c4) F32_ONE)) in *. clearbody t4.
  set (T4 := (1 + val r / 4 * 1)%R) in *.
  assert (R4 : (0.82 <= T4 <= 1.18)%R) by (unfold T4; lra).
  destruct (smallx_step r c3 3 t4 T4 0.00000025 Fr Br G3 W3 ltac:(lra) F4) as [F3 D3]; [apply Rabs_le; lra|lra|lra|].
  cbv zeta in F3, D3. set (t3 := fadd F32_ONE (fmul (fdiv r c3) t4)) in *. clearbody t3.
  set (T3 := (1 + val r / 3 * T4)%R) in *.
  assert (R3 : (0.7 <= T3 <= 1.3)%R).
  { assert (K : (Rabs (val r / 3 * T4) <= 0.2311 * 1.18)%R) by (rewrite Rabs_mult; apply Rmult_le_compat; try apply Rabs_pos; apply Rabs_le; lra).
    apply Rabs_le_inv in K. unfold T3. lra. }
  destruct (smallx_step r c2 2 t3 T3 0.00000043 Fr Br G2 W2 ltac:(lra) F3) as [F2 D2]; [apply Rabs_le; lra|lra|lra|].
  cbv zeta in F2, D2. set (t2 := fadd F32_ONE (fmul (fdiv r c2) t3)) in *. clearbody t2.
  set (T2 := (1 + val r / 2 * T3)%R) in *.
  assert (R2 : (0.5 <= T2 <= 1.5)%R).
  { assert (K : (Rabs (val r / 2 * T3) <= 0.3466 * 1.3)%R) by (rewrite Rabs_mult; apply Rmult_le_compat; try apply Rabs_pos; apply Rabs_le; lra).
    apply Rabs_le_inv in K. unfold T2. lra. }
  apply Rabs_le_inv in D2.
  assert (V2 : (0.4 <= val t2 <= 1.6)%R) by lra.
  assert (Q1 : (val r / val c1 = val r)%R) by (rewrite W1; unfold Rdiv; rewrite Rinv_1; ring).
  destruct (fdiv_R r c1 Fr G1) as [Fq Vq]; [rewrite W1; lra|rewrite Q1; apply (small_lt_128 1); [lia|bpow_lit; lra]|].
  rewrite Q1, rnd_fmt in Vq by (apply fmt_val; exact Fr). set (q := fdiv r c1) in *. clearbody q.
  assert (B : (Rabs (val q * val t2) <= 1.2)%R).
  { rewrite Vq, Rabs_mult. apply Rle_trans with (0.6932 * 1.6)%R; [apply Rmult_le_compat; try apply Rabs_pos; [exact Br|apply Rabs_le; lra]|lra]. }
  destruct (fmul_R q t2 Fq F2) as [Fp Vp]; [apply (small_lt_128 1); [lia|bpow_lit; lra]|].
  set (p := fmul q t2) in *. clearbody p.
  assert (Bp : (Rabs (val p) <= bpow radix2 1)%R) by (rewrite Vp; apply (rnd_abs_le 1); [lia|bpow_lit; lra]).
  destruct (fadd_R F32_ONE p FO Fp) as [Ft Vt].
  { apply (small_lt_128 2); [lia|]. rewrite VO. revert Bp. bpow_lit. intros Bp. apply Rabs_le_inv in Bp. apply Rabs_le. lra. }
  rewrite Vt, VO. split; intros S.
  - assert (0 <= val p)%R by (rewrite Vp; apply rnd_nonneg; rewrite Vq; apply Rmult_le_pos; [exact S|lra]).
    rewrite <- (rnd_fmt 1) at 1 by (rewrite <- VO; apply fmt_val; exact FO). apply rnd_le. lra.
  - assert (val p <= 0)%R.
    { rewrite Vp. rewrite <- (rnd_fmt 0) by apply generic_format_0. apply rnd_le. rewrite Vq.
      assert (0 <= (- val r) * val t2)%R by (apply Rmult_le_pos; [lra|lra]). lra. }
    rewrite <- (rnd_fmt 1) at 2 by (rewrite <- VO; apply fmt_val; exact FO). apply rnd_le. lra.
Qed.

(** ** Fraction, scaled by ln 2, through the series *)

Lemma fract_any : forall {E : Env} y, exists z, F32_fract y = Ok z /\ fin z /\ sign_bit z = sign_bit y /\ (Rabs (val z) < 1)%R.
Proof.
  intros E y. destruct (Z.lt_ge_cases (bexp (to_bits y)) 127) as [L|L].
  - exists y. rewrite fract_small by exact L. assert (F : fin y) by (apply fin_bexp_lt; lia).
    refine (conj eq_refl (conj F (conj eq_refl _))). change 1%R with (bpow radix2 0). apply abs_lt_bpow; [exact F|lia|lia].
  - destruct (fract_bits y L) as (z & A & B & C & D). exists z. refine (conj A (conj B (conj C _))).
    rewrite D, sgn_abs, Rabs_mult, (Rabs_pos_eq (bpow radix2 (-23))) by apply bpow_ge_0.
    pose proof (fp_range y) as [R0 R1]. rewrite Rabs_pos_eq by (apply IZR_le; exact R0).
    apply IZR_lt in R1. change (IZR (2 ^ 23)) with 8388608%R in R1. bpow_lit. lra.
Qed.

Lemma scaled_fract : forall {E : Env} z, fin z -> (Rabs (val z) < 1)%R ->
  let r := fmul z c_LN_2 in
  fin r /\ (Rabs (val r - val z * ln 2) <= 0.000000033)%R /\ (Rabs (val r) <= 0.6932)%R /\
  ((0 <= val z)%R -> (0 <= val r)%R) /\ ((val z <= 0)%R -> (val r <= 0)%R).
Proof.
  intros E z Fz Bz r. unfold r. destruct c_LN_2_val as [Fc Vc]. pose proof ln2_bounds as LB.
  assert (P : (Rabs (val z * val c_LN_2) <= 0.69314719)%R).
  { rewrite Rabs_mult, Vc. apply Rle_trans with (1 * (11629080 / 16777216))%R; [|lra].
    apply Rmult_le_compat; try apply Rabs_pos; [lra|apply Rabs_le; lra]. }
  destruct (fmul_R z c_LN_2 Fz Fc) as [Fr Vr]; [apply (small_lt_128 0); [lia|bpow_lit; lra]|].
  pose proof (rnd_err 0 (val z * val c_LN_2) ltac:(lia)) as R. rewrite <- Vr in R.
  assert (B0 : (Rabs (val z * val c_LN_2) <= bpow radix2 0)%R) by (bpow_lit; lra). specialize (R B0).
  change (0 - 25) with (-25) in R. revert R. bpow_lit. intros R.
  assert (D : (Rabs (val z * val c_LN_2 - val z * ln 2) <= 0.000000002)%R).
  { replace (val z * val c_LN_2 - val z * ln 2)%R with (val z * (val c_LN_2 - ln 2))%R by ring.
    rewrite Rabs_mult. apply Rle_trans with (1 * 0.000000002)%R; [|lra].
    apply Rmult_le_compat; try apply Rabs_pos; [lra|rewrite Vc; apply Rabs_le; lra]. }
  apply Rabs_le_inv in R. apply Rabs_le_inv in D. apply Rabs_le_inv in P.
  split; [exact Fr|]. split; [apply Rabs_le; lra|]. split; [apply Rabs_le; lra|].
  split; intros S; rewrite Vr.
  - apply rnd_nonneg. apply Rmult_le_pos; [exact S|rewrite Vc; lra].
  - rewrite <- (rnd_fmt 0) by apply generic_format_0. apply rnd_le.
    assert (0 <= (- val z) * val c_LN_2)%R by (apply Rmult_le_pos; [lra|rewrite Vc; lra]). lra.
Qed.

Lemma series_facts : forall {E : Env} y, exists z t, F32_fract y = Ok z /\ t = F32_exp_smallx (fmul z c_LN_2) 4 /\
  fin z /\ (Rabs (val z) < 1)%R /\ sign_bit z = sign_bit y /\ fin t /\ sign_bit t = false /\
  (Rabs (val t - expp (val (fmul z c_LN_2))) <= 0.0000007)%R /\
  (sign_bit y = false -> (1 <= val t < 2)%R /\ bexp (to_bits t) = 127) /\
  (sign_bit y = true -> (/ 2 < val t <= 1)%R /\ 126 <= bexp (to_bits t) <= 127).
Proof.
  intros E y. destruct (fract_any y) as (z & A & Fz & Sz & Bz). exists z.
  destruct (scaled_fract z Fz Bz) as (Fr & Dr & Br & Pr & Nr). cbv zeta in Fr, Dr, Br, Pr, Nr.
  set (r := fmul z c_LN_2) in *. clearbody r.
  destruct (smallx_acc r Fr Br) as [Ft Dt]. destruct (smallx_sides r Fr Br) as [P1 P2].
  exists (F32_exp_smallx r 4). set (t := F32_exp_smallx r 4) in *. clearbody t.
  apply Rabs_le_inv in Dt as Dt'. apply Rabs_le_inv in Br as Br'.
  assert (Pt : (/ 2 < val t)%R).
  { destruct (Rle_or_lt 0 (val r)) as [S|S]; [specialize (P1 S); lra|]. pose proof (expp_le (val r) ltac:(lra)). lra. }
  assert (St : sign_bit t = false).
  { destruct (sign_bit t) eqn:S; [|reflexivity]. pose proof (sign_val_neg t S). lra. }
  refine (conj A (conj eq_refl (conj Fz (conj Bz (conj Sz (conj Ft (conj St (conj Dt (conj _ _))))))))); intros S; rewrite <- Sz in S.
  - pose proof (sign_val_pos z S) as Z0. specialize (Pr Z0). specialize (P1 Pr).
    pose proof (expp_ge (val r) ltac:(lra)) as G. assert (U : (1 <= val t < 2)%R) by lra. refine (conj U _).
    pose proof (bexp_ge t 0 Ft ltac:(lia)) as L1. pose proof (bexp_lt t 1 Ft ltac:(lia)) as L2.
    rewrite Rabs_pos_eq in L1, L2 by lra. revert L1 L2. bpow_lit. intros L1 L2. specialize (L1 ltac:(lra)). specialize (L2 ltac:(lra)). lia.
  - pose proof (sign_val_neg z S) as Z0. specialize (Nr Z0). specialize (P2 Nr). refine (conj (conj Pt P2) _).
    pose proof (bexp_ge t (-1) Ft ltac:(lia)) as L1. pose proof (bexp_lt t 1 Ft ltac:(lia)) as L2.
    rewrite Rabs_pos_eq in L1, L2 by lra. revert L1 L2. bpow_lit. intros L1 L2. specialize (L1 ltac:(lra)). specialize (L2 ltac:(lra)). lia.
Qed.

(** ** Putting the exponent back *)

Definition exp_finish {E : Env} (t : f32) (n : Z) : res f32 :=
  let p := clamp i32 (extract_exponent_value t + n) in
  if p <? - EXPONENT_BIAS then Ok F32_ZERO
  else if EXPONENT_BIAS + 1 <? p then Ok F32_INFINITY
  else set_exponent t p.

Definition exp_short {E : Env} (x : f32) : bool :=
  feq x F32_ZERO || flt (F32_abs (fsub x F32_ONE)) F32_EPSILON || flt (F32_abs (fsub x (fneg F32_ONE))) F32_EPSILON.

Lemma exp_split : forall {E : Env} x z, exp_short x = false -> F32_fract (fmul x c_LOG2_E) = Ok z ->
  F32_exp x = exp_finish (F32_exp_smallx (fmul z c_LN_2) 4) (to_i32 (F32_trunc (fmul x c_LOG2_E))).
Proof.
  intros E x z S H. unfold exp_short in S. apply orb_false_iff in S. destruct S as [S S3]. apply orb_false_iff in S. destruct S as [S1 S2].
  unfold F32_exp, F32_exp_ln2_approx. rewrite S1, S2, S3, H. reflexivity.
Qed.

Lemma land_not_exp : forall b, 0 <= b < 2 ^ 31 -> Z.land b (not32 EXPONENT_MASK) = bman b.
Proof.
  intros b H. change (not32 EXPONENT_MASK) with (Z.lor (Z.ones 23) (2 ^ 31)). rewrite Z.land_lor_distr_r.
  rewrite Z.land_ones by lia. change (b mod 2 ^ 23) with (bman b).
  replace (Z.land b (2 ^ 31)) with 0; [apply Z.lor_0_r|]. symmetry. apply Z.bits_inj'. intros i Hi. rewrite Z.land_spec, Z.bits_0.
  rewrite Z.pow2_bits_eqb by lia. destruct (Z.eqb_spec 31 i) as [<-|]; [|apply andb_false_r].
  rewrite andb_true_r. destruct (Z.eq_dec b 0) as [->|]; [apply Z.bits_0|]. apply Z.bits_above_log2; [lia|]. apply Z.log2_lt_pow2; lia.
Qed.

Lemma set_exponent_eq : forall {E : Env} t p, sign_bit t = false -> -127 <= p <= 128 ->
  set_exponent t p = if debug_assertions && (p =? 128) then Panic else Ok (from_bits ((p + 127) * 2 ^ 23 + bman (to_bits t))).
Proof.
  intros E t p S H. unfold set_exponent.
  replace (negb ((p <=? 127) && (-128 <=? p))) with (p =? 128).
  2:{ destruct (Z.eqb_spec p 128); destruct (Z.leb_spec p 127); destruct (Z.leb_spec (-128) p); try reflexivity; lia. }
  destruct (debug_assertions && (p =? 128)); [reflexivity|]. cbv zeta.
  change EXPONENT_BIAS with 127. rewrite arith_ok by (change (ity_min i32) with (-2147483648); change (ity_max i32) with 2147483647; lia). unfold bind. f_equal. f_equal.
  rewrite sign_bit_ge in S. apply Z.leb_gt in S. pose proof (to_bits_range t) as R.
  rewrite land_not_exp by lia. unfold as_u32. rewrite Z.mod_small by lia. unfold shl32.
  change (MANTISSA_BITS mod 32) with 23. rewrite Z.shiftl_mul_pow2 by lia. rewrite Z.mod_small by lia.
  rewrite lor_shift; [ring|lia|apply bman_range].
Qed.

Lemma finish_eq : forall {E : Env} t n, 0 <= bexp (to_bits t) <= 255 ->
  exp_finish t n = let p := clamp i32 (bexp (to_bits t) - 127 + n) in
    if p <? -127 then Ok F32_ZERO else if 128 <? p then Ok F32_INFINITY else set_exponent t p.
Proof. intros E t n H. unfold exp_finish. rewrite extract_exponent_value_eq. reflexivity. Qed.

Lemma clamp_i32_id : forall z, - 2 ^ 31 <= z <= 2 ^ 31 - 1 -> clamp i32 z = z.
Proof. intros z H. unfold clamp. change (ity_min i32) with (-2147483648). change (ity_max i32) with 2147483647. lia. Qed.

Lemma finish_zero : forall {E : Env} t n, bexp (to_bits t) <= 127 -> n <= -128 -> exp_finish t n = Ok F32_ZERO.
Proof.
  intros E t n H L. pose proof (bexp_range (to_bits t)). rewrite finish_eq by lia. cbv zeta.
  replace (_ <? -127) with true; [reflexivity|]. symmetry. apply Z.ltb_lt. unfold clamp. change (ity_min i32) with (-2147483648). change (ity_max i32) with 2147483647. lia.
Qed.

Lemma finish_inf : forall {E : Env} t n, 127 <= bexp (to_bits t) -> 129 <= n -> exp_finish t n = Ok F32_INFINITY.
Proof.
  intros E t n H L. pose proof (bexp_range (to_bits t)). rewrite finish_eq by lia. cbv zeta.
  replace (_ <? -127) with false; [|symmetry; apply Z.ltb_ge; unfold clamp; change (ity_min i32) with (-2147483648); change (ity_max i32) with 2147483647; lia].
  replace (128 <? _) with true; [reflexivity|]. symmetry. apply Z.ltb_lt. unfold clamp. change (ity_min i32) with (-2147483648). change (ity_max i32) with 2147483647. lia.
Qed.

Lemma finish_mid : forall {E : Env} t n, sign_bit t = false -> -127 <= bexp (to_bits t) - 127 + n <= 128 ->
  exp_finish t n = if debug_assertions && (bexp (to_bits t) - 127 + n =? 128) then Panic
    else Ok (from_bits ((bexp (to_bits t) + n) * 2 ^ 23 + bman (to_bits t))).
Proof.
  intros E t n S L. pose proof (bexp_range (to_bits t)). rewrite finish_eq by lia. cbv zeta. rewrite clamp_i32_id by lia.
  replace (_ <? -127) with false by (symmetry; apply Z.ltb_ge; lia).
  replace (128 <? _) with false by (symmetry; apply Z.ltb_ge; lia).
  rewrite set_exponent_eq by (trivial; lia). replace (bexp (to_bits t) - 127 + n + 127) with (bexp (to_bits t) + n) by ring. reflexivity.
Qed.

(** Normal results: the series value times 2^n, exactly. *)
Lemma finish_normal : forall {E : Env} t n, fin t -> sign_bit t = false -> bexp (to_bits t) <> 0 ->
  -126 <= bexp (to_bits t) - 127 + n <= 127 ->
  exists r, exp_finish t n = Ok r /\ fin r /\ sign_bit r = false /\ val r = (val t * bpow radix2 n)%R.
Proof.
  intros E t n F S NZ L. rewrite finish_mid by (trivial; lia).
  replace (_ =? 128) with false by (symmetry; apply Z.eqb_neq; lia). rewrite andb_false_r.
  pose proof (bman_range (to_bits t)) as M.
  destruct (mk_val (bexp (to_bits t) + n) (bman (to_bits t)) ltac:(lia) M) as (A & B & _ & V). cbv zeta in A, B, V.
  eexists. refine (conj eq_refl (conj A (conj B _))). rewrite V.
  rewrite (val_normal t F NZ). unfold sgn. rewrite S. rewrite Rmult_1_l, Rmult_assoc, <- bpow_plus.
  replace (bexp (to_bits t) + n - 127) with (-23 + (bexp (to_bits t) + n - 127) + 23) at 1 by ring.
  replace (bexp (to_bits t) - 150 + n) with (-23 + (bexp (to_bits t) + n - 127)) by ring.
  rewrite (bpow_plus radix2 _ 23), plus_IZR. change (bpow radix2 23) with 8388608%R. change (IZR (2 ^ 23)) with 8388608%R. field.
Qed.

(** ** The scaled argument y = x * log2(e) and its integer part *)

Lemma trunc_i32_exact : forall y, fin y -> (Rabs (val y) < bpow radix2 31)%R -> to_i32 (F32_trunc y) = Ztrunc (val y).
Proof.
  intros y F B. destruct (trunc_exact y F) as (TF & TV & _).
  { apply Rlt_trans with (1 := B). apply bpow_lt. lia. }
  rewrite to_i32_fin by exact TF. rewrite TV, Ztrunc_IZR. apply clamp_i32_id.
  apply Rabs_lt_inv in B. change (bpow radix2 31) with (IZR (2 ^ 31)) in B.
  split.
  - apply le_IZR. change (IZR (- 2 ^ 31)) with (- IZR (2 ^ 31))%R.
    destruct (Rle_or_lt 0 (val y)) as [P|P].
    + rewrite Ztrunc_floor by exact P. apply Rle_trans with 0%R; [lra|]. apply IZR_le. apply Zfloor_lub. exact P.
    + rewrite Ztrunc_ceil by lra. pose proof (Zceil_ub (val y)). lra.
  - assert (Ztrunc (val y) < 2 ^ 31); [|lia]. apply lt_IZR.
    destruct (Rle_or_lt 0 (val y)) as [P|P].
    + rewrite Ztrunc_floor by exact P. pose proof (Zfloor_lb (val y)). lra.
    + rewrite Ztrunc_ceil by lra. apply Rle_lt_trans with 0%R; [|lra]. apply IZR_le. apply Zceil_glb. lra.
Qed.

Lemma trunc_i32_big : forall y N, 0 <= N <= 1000 -> (fin y -> (IZR N <= Rabs (val y))%R) ->
  (sign_bit y = false -> N <= to_i32 (F32_trunc y)) /\ (sign_bit y = true -> to_i32 (F32_trunc y) <= - N).
Proof.
  intros y N HN H. destruct (is_finite y) eqn:F.
  2:{ rewrite (trunc_nonfinite y F). split; intros ->; [change (to_i32 (f32_inf false)) with 2147483647|change (to_i32 (f32_inf true)) with (-2147483648)]; lia. }
  specialize (H F). destruct (Rlt_or_le (Rabs (val y)) (bpow radix2 31)) as [L|L].
  - rewrite (trunc_i32_exact y F L). split; intros S.
    + pose proof (sign_val_pos y S) as P. rewrite Rabs_pos_eq in H by exact P. rewrite Ztrunc_floor by exact P. apply Zfloor_lub. exact H.
    + pose proof (sign_val_neg y S) as P. rewrite Rabs_left1 in H by exact P. rewrite Ztrunc_ceil by exact P. apply Zceil_glb. rewrite opp_IZR. lra.
  - assert (B31 : (1 <= bpow radix2 31)%R) by (bpow_lit; lra).
    destruct (trunc_general y F ltac:(lra)) as (TF & TS & _).
    pose proof (bexp_ge y 31 F ltac:(lia) L) as Lb. pose proof (trunc_fields y ltac:(lia)) as TFl. cbv zeta in TFl. destruct TFl as (_ & Te & _).
    rewrite to_i32_big; [rewrite TS; split; intros ->; lia|apply fin_not_nan; exact TF|].
    intros _. apply abs_ge_bpow; [exact TF|lia|]. rewrite Te. exact Lb.
Qed.

Lemma y_fin : forall {E : Env} x, fin x -> (Rabs (val x) <= 1000)%R ->
  fin (fmul x c_LOG2_E) /\ val (fmul x c_LOG2_E) = rnd (val x * (12102203 / 8388608)).
Proof.
  intros E x F B. destruct c_LOG2_E_val as [Fc Vc]. rewrite <- Vc. apply fmul_R; [exact F|exact Fc|].
  apply (small_lt_128 11); [lia|]. rewrite Vc, Rabs_mult, (Rabs_pos_eq (12102203 / 8388608)) by lra. bpow_lit. lra.
Qed.

Lemma y_consts : forall {E : Env},
  rnd (88.72283172607421875 * (12102203 / 8388608)) = (128 - 2 / 131072)%R /\
  rnd (88.72283935546875 * (12102203 / 8388608)) = 128%R /\
  rnd (88.72284698486328125 * (12102203 / 8388608)) = (128 + 1 / 65536)%R /\
  rnd (89.41597747802734375 * (12102203 / 8388608)) = (129 - 1 / 65536)%R /\
  rnd (89.415985107421875 * (12102203 / 8388608)) = 129%R /\
  rnd (87.3365478515625 * (12102203 / 8388608)) = 126%R /\
  rnd (87.33655548095703125 * (12102203 / 8388608)) = (126 + 2 / 131072)%R /\
  rnd (88.02968597412109375 * (12102203 / 8388608)) = (127 - 1 / 131072)%R /\
  rnd (88.029693603515625 * (12102203 / 8388608)) = 127%R.
Proof.
  intros E.
  assert (H : forall a k A K, fin (from_bits a) -> val (from_bits a) = A -> (Rabs A <= 1000)%R ->
     fmul (from_bits a) c_LOG2_E = from_bits k -> val (from_bits k) = K -> rnd (A * (12102203 / 8388608)) = K).
  { intros a k A K F VA BA M VK. subst A K. destruct (y_fin (from_bits a) F BA) as [_ V]. rewrite M in V. symmetry. exact V. }
  repeat split;
  [ apply (H 0x42b17217 0x42fffffe)
  | apply (H 0x42b17218 0x43000000)
  | apply (H 0x42b17219 0x43000001)
  | apply (H 0x42b2d4fb 0x4300ffff)
  | apply (H 0x42b2d4fc 0x43010000)
  | apply (H 0x42aeac50 0x42fc0000)
  | apply (H 0x42aeac51 0x42fc0002)
  | apply (H 0x42b00f33 0x42fdffff)
  | apply (H 0x42b00f34 0x42fe0000) ].
  all: try (apply Rabs_le; lra). all: try (apply to_bits_inj; vm_compute; reflexivity). all: try reflexivity.
  { lit 0x42b17217; bpow_lit; lra. } { lit 0x42fffffe; bpow_lit; lra. }
  { lit 0x42b17218; bpow_lit; lra. } { lit 0x43000000; bpow_lit; lra. }
  { lit 0x42b17219; bpow_lit; lra. } { lit 0x43000001; bpow_lit; lra. }
  { lit 0x42b2d4fb; bpow_lit; lra. } { lit 0x4300ffff; bpow_lit; lra. }
  { lit 0x42b2d4fc; bpow_lit; lra. } { lit 0x43010000; bpow_lit; lra. }
  { lit 0x42aeac50; bpow_lit; lra. } { lit 0x42fc0000; bpow_lit; lra. }
  { lit 0x42aeac51; bpow_lit; lra. } { lit 0x42fc0002; bpow_lit; lra. }
  { lit 0x42b00f33; bpow_lit; lra. } { lit 0x42fdffff; bpow_lit; lra. }
  { lit 0x42b00f34; bpow_lit; lra. } { lit 0x42fe0000; bpow_lit; lra. }
Qed.

Lemma near_const : forall {E : Env} x c, fin x -> fin c -> flt (F32_abs (fsub x c)) F32_EPSILON = true -> (Rabs (val x - val c) < / 8388608)%R.
Proof.
  intros E x c Fx Fc H. destruct eps_val as [Fe Ve]. pose proof (abs_lt_fin _ _ Fe H) as Fz.
  destruct (Rlt_or_le (Rabs (rnd (val x - val c))) (bpow radix2 128)) as [L|L].
  2:{ pose proof (fsub_over x c Fx Fc L). unfold fin in Fz. congruence. }
  destruct (fsub_R x c Fx Fc L) as [F V].
  rewrite flt_R, abs_val, Ve, V in H by (trivial; unfold fin; rewrite abs_fin; exact F).
  destruct (Rlt_bool_spec (Rabs (rnd (val x - val c))) (/ 8388608)) as [C|C]; [|discriminate].
  apply Rnot_le_lt. intros G.
  assert (I : (/ 8388608 <= Rabs (rnd (val x - val c)))%R); [|lra].
  change (/ 8388608)%R with (bpow radix2 (-23)) in *.
  apply abs_round_ge_generic; try typeclasses eauto; [apply (fmt_bpow (-23)); lia|lra].
Qed.

Lemma mone_val : fin (fneg F32_ONE) /\ val (fneg F32_ONE) = (-1)%R.
Proof. destruct one_val as [F V]. split; [apply fneg_fin; exact F|]. rewrite fneg_val, V. reflexivity. Qed.

(** The shortcuts are taken only near 0, 1 and -1. *)
Lemma short_far : forall {E : Env} x, fin x -> (2 <= Rabs (val x))%R -> exp_short x = false.
Proof.
  intros E x F H. unfold exp_short. destruct one_val as [FO VO]. destruct mone_val as [FM VM]. destruct zero_val as [FZ VZ].
  assert (A1 : feq x F32_ZERO = false).
  { rewrite feq_R by assumption. rewrite VZ. apply Req_bool_false. intros C. rewrite C, Rabs_R0 in H. lra. }
  rewrite A1, orb_false_l. apply orb_false_iff. split.
  - destruct (flt _ _) eqn:K; [|reflexivity]. apply near_const in K; [|exact F|exact FO]. rewrite VO in K.
    exfalso. revert H K. unfold Rabs. destruct (Rcase_abs (val x)), (Rcase_abs (val x - 1)); lra.
  - destruct (flt _ _) eqn:K; [|reflexivity]. apply near_const in K; [|exact F|exact FM]. rewrite VM in K.
    exfalso. revert H K. unfold Rabs. destruct (Rcase_abs (val x)), (Rcase_abs (val x - -1)); lra.
Qed.

Lemma short_inf : forall {E : Env} s, exp_short (f32_inf s) = false.
Proof. intros E s. destruct s; vm_compute; reflexivity. Qed.

Lemma short_nan : forall {E : Env} x, nan x -> exp_short x = false.
Proof.
  intros E x N. unfold exp_short. rewrite !flt_nan by (left; apply abs_nan, fsub_nan; left; exact N).
  destruct x; try discriminate N. reflexivity.
Qed.

Lemma y_sign : forall {E : Env} x, is_nan x = false -> sign_bit (fmul x c_LOG2_E) = sign_bit x.
Proof.
  intros E x N. destruct (is_finite x) eqn:F.
  - destruct c_LOG2_E_val as [Fc _]. rewrite fmul_sign by (apply fmul_fin_not_nan; assumption).
    change (sign_bit c_LOG2_E) with false. apply xorb_false_r.
  - destruct x as [s|s|s p K|s m e K]; try discriminate. change (B754_infinity s) with (f32_inf s). destruct s; vm_compute; reflexivity.
Qed.

Lemma y_val : forall {E : Env} x, fin x -> fin (fmul x c_LOG2_E) -> val (fmul x c_LOG2_E) = rnd (val x * (12102203 / 8388608)).
Proof.
  intros E x F Fy. destruct c_LOG2_E_val as [Fc Vc]. rewrite <- Vc.
  destruct (Rlt_or_le (Rabs (val x * val c_LOG2_E)) (bpow radix2 128)) as [L|L].
  2:{ exfalso. rewrite fmul_over in Fy by assumption. discriminate Fy. }
  pose proof (Bmult_correct 24 128 prec24 emax128 nan_mul mode_NE x c_LOG2_E) as C.
  destruct (Rlt_bool _ _).
  - exact (proj1 C).
  - fold (fmul x c_LOG2_E) in C. unfold fin in Fy. destruct (fmul x c_LOG2_E); simpl in C; discriminate.
Qed.

Lemma exp_main : forall {E : Env} x, exp_short x = false -> let y := fmul x c_LOG2_E in
  exists z t, F32_exp x = exp_finish t (to_i32 (F32_trunc y)) /\ F32_fract y = Ok z /\ t = F32_exp_smallx (fmul z c_LN_2) 4 /\
  fin z /\ (Rabs (val z) < 1)%R /\ sign_bit z = sign_bit y /\ fin t /\ sign_bit t = false /\
  (Rabs (val t - expp (val (fmul z c_LN_2))) <= 0.0000007)%R /\
  (sign_bit y = false -> (1 <= val t < 2)%R /\ bexp (to_bits t) = 127) /\
  (sign_bit y = true -> (/ 2 < val t <= 1)%R /\ 126 <= bexp (to_bits t) <= 127).
Proof.
  intros E x S y. destruct (series_facts y) as (z & t & A & B & C & D & F & G & H & I & J & K).
  exists z, t. pose proof (exp_split x z S A) as X. rewrite <- B in X.
  exact (conj X (conj A (conj B (conj C (conj D (conj F (conj G (conj H (conj I (conj J K)))))))))).
Qed.

(** ** Limits *)

Lemma exp_over : forall {E : Env} x, is_nan x = false -> sign_bit x = false ->
  (fin x -> (89.415985107421875 <= val x)%R) -> F32_exp x = Ok F32_INFINITY.
Proof.
  intros E x N S H.
  assert (SH : exp_short x = false).
  { destruct (is_finite x) eqn:F.
    - apply short_far; [exact F|]. specialize (H F). rewrite Rabs_pos_eq; lra.
    - destruct x as [s|s|s p K|s m e K]; try discriminate. exact (short_inf s). }
  destruct (exp_main x SH) as (z & t & A & _ & _ & _ & _ & _ & Ft & St & _ & P & _). cbv zeta in A, P.
  pose proof (y_sign x N) as Sy. rewrite S in Sy. destruct (P Sy) as [_ Be]. rewrite A.
  apply finish_inf; [lia|]. apply (trunc_i32_big _ 129 ltac:(lia)); [|exact Sy].
  intros Fy. destruct (is_finite x) eqn:F.
  - specialize (H F). rewrite (y_val x F Fy). rewrite Rabs_pos_eq by (apply rnd_nonneg; lra).
    destruct y_consts as (_ & _ & _ & _ & Q & _). rewrite <- Q. apply rnd_le. lra.
  - exfalso. destruct x as [s|s|s p K|s m e K]; try discriminate; destruct s; discriminate.
Qed.

Lemma one_bits : forall t, fin t -> sign_bit t = false -> val t = 1%R -> t = F32_ONE.
Proof. intros t F S V. destruct one_val as [FO VO]. apply fin_dec_eq; trivial. congruence. Qed.

Lemma exp_under : forall {E : Env} x, is_nan x = false -> sign_bit x = true ->
  (fin x -> (val x <= - 88.029693603515625)%R) -> F32_exp x = Ok F32_ZERO.
Proof.
  intros E x N S H.
  assert (SH : exp_short x = false).
  { destruct (is_finite x) eqn:F.
    - apply short_far; [exact F|]. specialize (H F). rewrite Rabs_left1; lra.
    - destruct x as [s|s|s p K|s m e K]; try discriminate. exact (short_inf s). }
  destruct (exp_main x SH) as (z & t & A & _ & _ & _ & _ & _ & Ft & St & _ & _ & P). cbv zeta in A, P.
  pose proof (y_sign x N) as Sy. rewrite S in Sy. destruct (P Sy) as [Bt Be]. rewrite A.
  assert (L : to_i32 (F32_trunc (fmul x c_LOG2_E)) <= - 127).
  { apply (trunc_i32_big _ 127 ltac:(lia)); [|exact Sy].
    intros Fy. destruct (is_finite x) eqn:F.
    - specialize (H F). rewrite (y_val x F Fy). rewrite <- Rabs_Ropp, <- rnd_opp. rewrite Rabs_pos_eq by (apply rnd_nonneg; lra).
      destruct y_consts as (_ & _ & _ & _ & _ & _ & _ & _ & Q). rewrite <- Q. apply rnd_le. lra.
    - exfalso. destruct x as [s|s|s p K|s m e K]; try discriminate; destruct s; discriminate. }
  set (n := to_i32 (F32_trunc (fmul x c_LOG2_E))) in *. clearbody n.
  destruct (Z_le_gt_dec n (-128)) as [L2|L2]; [apply finish_zero; [lia|exact L2]|].
  assert (n = -127) by lia. subst n.
  destruct (Z.eq_dec (bexp (to_bits t)) 127) as [E7|E7].
  - assert (V : val t = 1%R).
    { pose proof (abs_ge_bpow t 0 Ft ltac:(lia) ltac:(lia)) as G. rewrite Rabs_pos_eq in G by lra. change (bpow radix2 0) with 1%R in G. lra. }
    rewrite finish_mid by (trivial; lia). rewrite E7. change (127 - 127 + -127 =? 128) with false. rewrite andb_false_r.
    rewrite (one_bits t Ft St V). apply (f_equal (@Ok f32)); apply to_bits_inj; vm_compute; reflexivity.
  - pose proof (bexp_range (to_bits t)). rewrite finish_eq by lia. cbv zeta. rewrite clamp_i32_id by lia.
    replace (_ <? -127) with true by (symmetry; apply Z.ltb_lt; lia). reflexivity.
Qed.

(** NaN is not propagated. *)
Lemma exp_nan : forall {E : Env} x, nan x -> F32_exp x = Ok F32_INFINITY \/ F32_exp x = Ok F32_ZERO.
Proof.
  intros E x N. destruct (exp_main x (short_nan x N)) as (z & t & A & _ & _ & _ & _ & _ & Ft & St & _ & P & Q). cbv zeta in A, P, Q.
  assert (Ny : nan (fmul x c_LOG2_E)) by (apply fmul_nan; left; exact N). rewrite A.
  destruct (trunc_i32_big (fmul x c_LOG2_E) 200 ltac:(lia)) as [T1 T2].
  { intros F. pose proof (fin_not_nan _ F). unfold nan in Ny. congruence. }
  destruct (sign_bit (fmul x c_LOG2_E)).
  - right. destruct (Q eq_refl). specialize (T2 eq_refl). apply finish_zero; lia.
  - left. destruct (P eq_refl). specialize (T1 eq_refl). apply finish_inf; lia.
Qed.

(** ** The overflow window *)

Lemma window_n : forall y, fin y -> (128 <= val y < 129)%R -> to_i32 (F32_trunc y) = 128.
Proof.
  intros y F B. rewrite trunc_i32_exact; [|exact F|rewrite Rabs_pos_eq by lra; bpow_lit; lra].
  rewrite Ztrunc_floor by lra. apply Zfloor_imp. change (IZR (128 + 1)) with 129%R. exact B.
Qed.

Lemma exp_window : forall {E : Env} x, fin x -> (88.72283935546875 <= val x <= 89.41597747802734375)%R ->
  (debug_assertions = true -> F32_exp x = Panic) /\
  (debug_assertions = false -> exists r, F32_exp x = Ok r /\
     (val x = 88.72283935546875%R -> r = F32_INFINITY) /\ ((88.72284698486328125 <= val x)%R -> nan r)).
Proof.
  intros E x F H. assert (SH : exp_short x = false) by (apply short_far; [exact F|rewrite Rabs_pos_eq; lra]).
  destruct (y_fin x F ltac:(apply Rabs_le; lra)) as [Fy Vy].
  destruct (exp_main x SH) as (z & t & A & Z & Et & Fz & Bz & _ & Ft & St & Dt & P & _). cbv zeta in A, Z, P.
  set (y := fmul x c_LOG2_E) in *.
  destruct y_consts as (_ & Q1 & Q2 & Q3 & _).
  assert (By : (128 <= val y <= 129 - 1 / 65536)%R).
  { rewrite Vy. split; [rewrite <- Q1|rewrite <- Q3]; apply rnd_le; lra. }
  assert (Sy : sign_bit y = false).
  { destruct (sign_bit y) eqn:S; [|reflexivity]. pose proof (sign_val_neg y S). lra. }
  destruct (P Sy) as [Bt Be]. rewrite (window_n y Fy ltac:(lra)) in A. rewrite finish_mid in A by (trivial; lia).
  rewrite Be in A. change (127 - 127 + 128 =? 128) with true in A. rewrite andb_true_r in A.
  split; intros DA; rewrite DA in A; [exact A|]. eexists. split; [exact A|].
  assert (Bm : to_bits t = 127 * 2 ^ 23 + bman (to_bits t)).
  { pose proof (to_bits_range t) as R. pose proof (mkbits_eq _ R) as K. rewrite Be in K. rewrite K at 1. unfold mkbits.
    replace (bsign (to_bits t)) with 0; [ring|]. pose proof (fields t) as [FS _]. rewrite St in FS. symmetry. exact FS. }
  pose proof (bman_range (to_bits t)) as MR.
  destruct (fract_exact y Fy) as (z' & Z' & Fz' & Sz' & Vz' & _); [rewrite Rabs_pos_eq by lra; bpow_lit; lra|].
  rewrite Z in Z'. injection Z' as <-. clearbody y. split.
  - intros V. assert (Vy' : val y = 128%R) by (rewrite Vy, V; exact Q1).
    assert (z = f32_zero false).
    { apply fin_dec_eq; [exact Fz|reflexivity| |rewrite Sz'; exact Sy]. rewrite Vz', Vy'. rewrite Ztrunc_IZR. unfold val, f32_zero. simpl. ring. }
    subst z. assert (T : t = F32_ONE) by (rewrite Et; apply to_bits_inj; vm_compute; reflexivity).
    rewrite T. apply to_bits_inj; vm_compute; reflexivity.
  - intros L. assert (Ly : (128 + 1 / 65536 <= val y)%R) by (rewrite Vy, <- Q2; apply rnd_le; lra).
    assert (Tz : Ztrunc (val y) = 128) by (rewrite Ztrunc_floor by lra; apply Zfloor_imp; simpl IZR; lra).
    rewrite Tz in Vz'. destruct (scaled_fract z Fz Bz) as (Fr & Dr & Br & _). cbv zeta in Fr, Dr, Br.
    set (r := fmul z c_LN_2) in *. clearbody r. pose proof ln2_bounds as LB.
    assert (Zl : (1 / 65536 * 0.69 <= val z * ln 2)%R) by (apply Rmult_le_compat; lra).
    apply Rabs_le_inv in Dr. apply Rabs_le_inv in Br. apply Rabs_le_inv in Dt. pose proof (expp_ge (val r) ltac:(lra)) as G.
    assert (M0 : bman (to_bits t) <> 0).
    { intros M0. assert (T : t = F32_ONE) by (apply to_bits_inj; rewrite Bm, M0; vm_compute; reflexivity).
      destruct one_val as [_ VO]. rewrite T, VO in Dt. lra. }
    set (m := bman (to_bits t)) in *. clearbody m.
    unfold nan. rewrite nan_fields. rewrite to_from_bits by lia.
    destruct (mkbits_fields 0 255 m ltac:(lia) ltac:(lia) MR) as (_ & _ & K2 & K3).
    replace ((127 + 128) * 2 ^ 23 + m) with (mkbits 0 255 m) by (unfold mkbits; ring). rewrite K2, K3. 
    apply Z.eqb_neq in M0. rewrite M0. reflexivity.
Qed.

(** ** Accuracy *)

Lemma exp_scale : forall x n, (exp x = exp (x - IZR n * ln 2) * bpow radix2 n)%R.
Proof.
  intros x n. rewrite <- (exp_ln (bpow radix2 n)) by apply bpow_gt_0. rewrite ln_bpow, <- exp_plus. f_equal. ring.
Qed.

Lemma exp_rel : forall t r s a, (Rabs (expp r * exp (- r) - 1) <= a)%R -> (a <= 0.01)%R -> (Rabs r <= 0.6932)%R ->
  (Rabs (t - expp r) <= 0.0000007)%R -> (Rabs (r - s) <= 0.0000041)%R ->
  (Rabs (t - exp s) <= (a + 0.000006) * exp s)%R.
Proof.
  intros t r s a Ha Ba Br Dt Ds. apply Rabs_le_inv in Br. destruct (exp_m_range r ltac:(lra)) as [M0 M1].
  pose proof (exp_pos s) as Ps. pose proof (exp_delta _ Ds) as D. 
  assert (K : (exp (- s) = exp (- r) * exp (r - s))%R) by (rewrite <- exp_plus; f_equal; ring).
  assert (I : (exp s * exp (- s) = 1)%R) by (rewrite <- exp_plus; replace (s + - s)%R with 0%R by ring; apply exp_0).
  replace (t - exp s)%R with (exp s * (t * exp (- s) - 1))%R.
  2:{ replace (exp s * (t * exp (- s) - 1))%R with (t * (exp s * exp (- s)) - exp s)%R by ring. rewrite I. ring. }
  rewrite Rabs_mult, (Rabs_pos_eq (exp s)) by lra. rewrite Rmult_comm. apply Rmult_le_compat_r; [lra|]. rewrite K.
  set (A := (t * exp (- r))%R). set (dd := exp (r - s)) in *.
  assert (HA : (Rabs (A - 1) <= a + 0.00000141)%R).
  { unfold A. replace (t * exp (- r) - 1)%R with ((expp r * exp (- r) - 1) + (t - expp r) * exp (- r))%R by ring.
    eapply Rle_trans; [apply Rabs_triang|]. rewrite (Rabs_mult (t - expp r)), (Rabs_pos_eq (exp (- r))) by lra.
    assert (Rabs (t - expp r) * exp (- r) <= 0.0000007 * 2.0002)%R by (apply Rmult_le_compat; try apply Rabs_pos; lra). lra. }
  replace (t * (exp (- r) * dd) - 1)%R with ((A - 1) + (dd - 1) + (A - 1) * (dd - 1))%R by (unfold A; ring).
  assert (P : (Rabs ((A - 1) * (dd - 1)) <= (a + 0.00000141) * 0.0000042)%R) by (rewrite Rabs_mult; apply Rmult_le_compat; try apply Rabs_pos; assumption).
  assert (P2 : ((a + 0.00000141) * 0.0000042 <= 0.0000001)%R) by lra.
  eapply Rle_trans; [apply Rabs_triang|]. eapply Rle_trans; [apply Rplus_le_compat_r, Rabs_triang|]. lra.
Qed.

(** The regular path: normal result, series times a power of two. *)
Lemma exp_regular : forall {E : Env} x, fin x -> exp_short x = false ->
  (- 87.3365478515625 <= val x <= 88.72283172607421875)%R ->
  exists r, F32_exp x = Ok r /\ fin r /\ (bpow radix2 (-127) < val r)%R /\
    ((0 <= val x)%R -> (Rabs (val r - exp (val x)) <= 0.000761 * exp (val x))%R) /\
    ((val x <= 0)%R -> (Rabs (val r - exp (val x)) <= 0.0023975 * exp (val x))%R).
Proof.
  intros E x F SH H.
  destruct (y_fin x F ltac:(apply Rabs_le; lra)) as [Fy Vy].
  destruct (exp_main x SH) as (z & t & A & Z & Et & Fz & Bz & Sz & Ft & St & Dt & P & N). cbv zeta in A, Z, Sz, P, N.
  pose proof (y_sign x (fin_not_nan x F)) as Sy.
  assert (E18 : (Rabs (val (fmul x c_LOG2_E) - val x * (12102203 / 8388608)) <= bpow radix2 (-18))%R).
  { rewrite Vy. change (-18) with (7 - 25). apply rnd_err; [lia|]. bpow_lit. apply Rabs_le. lra. }
  destruct y_consts as (Q1 & _ & _ & _ & _ & Q2 & _).
  assert (By : (- 126 <= val (fmul x c_LOG2_E) <= 128 - 2 / 131072)%R).
  { rewrite Vy. split; [|rewrite <- Q1; apply rnd_le; lra]. replace (-126)%R with (Ropp 126) by lra. rewrite <- Q2, <- rnd_opp. apply rnd_le. lra. }
  set (y := fmul x c_LOG2_E) in *. clearbody y.
  destruct (fract_exact y Fy) as (z' & Z' & _ & _ & Vz & _); [apply Rabs_lt; bpow_lit; lra|].
  rewrite Z in Z'. injection Z' as <-.
  rewrite trunc_i32_exact in A by (trivial; apply Rabs_lt; bpow_lit; lra). set (n := Ztrunc (val y)) in *.
  assert (R : exists r, exp_finish t n = Ok r /\ fin r /\ sign_bit r = false /\ val r = (val t * bpow radix2 n)%R /\ -126 <= n).
  { destruct (sign_bit y) eqn:S.
    - destruct (N eq_refl) as [Bt Be]. pose proof (sign_val_neg y S) as Ny.
      assert (Ln : -126 <= n <= 0).
      { unfold n. rewrite Ztrunc_ceil by exact Ny. split; [|apply Zceil_glb; exact Ny].
        apply le_IZR. pose proof (Zceil_ub (val y)). simpl IZR at 1. lra. }
      destruct (Z.eq_dec (bexp (to_bits t)) 127) as [E7|E7].
      + destruct (finish_normal t n Ft St) as (r & R1 & R2 & R3 & R4); [lia|lia|]. exists r. exact (conj R1 (conj R2 (conj R3 (conj R4 (proj1 Ln))))).
      + destruct (Z.eq_dec n (-126)) as [N6|N6].
        * exfalso. apply E7. rewrite N6 in Vz.
          assert (Zy : val y = (-126)%R). { assert (IZR n >= val y)%R by (unfold n; rewrite Ztrunc_ceil by exact Ny; apply Rle_ge, Zceil_ub). rewrite N6 in H0. lra. }
          assert (Z0 : z = f32_zero true).
          { apply fin_dec_eq; [exact Fz|reflexivity| |exact Sz]. rewrite Vz, Zy. unfold val, f32_zero. simpl. ring. }
          rewrite Et, Z0. vm_compute. reflexivity.
        * destruct (finish_normal t n Ft St) as (r & R1 & R2 & R3 & R4); [lia|lia|]. exists r. exact (conj R1 (conj R2 (conj R3 (conj R4 (proj1 Ln))))).
    - destruct (P eq_refl) as [Bt Be]. pose proof (sign_val_pos y S) as Py.
      assert (Ln : 0 <= n <= 127).
      { unfold n. rewrite Ztrunc_floor by exact Py. split; [apply Zfloor_lub; exact Py|].
        assert (Zfloor (val y) < 128); [|lia]. apply lt_IZR. pose proof (Zfloor_lb (val y)). lra. }
      destruct (finish_normal t n Ft St) as (r & R1 & R2 & R3 & R4); [lia|lia|]. exists r. refine (conj R1 (conj R2 (conj R3 (conj R4 _)))). lia. }
  destruct R as (r & R1 & R2 & R3 & R4 & Ln). exists r. rewrite A. refine (conj R1 (conj R2 _)).
  assert (Th : (/ 2 < val t)%R) by (destruct (sign_bit y); [apply N; reflexivity|destruct (P eq_refl); lra]).
  pose proof (bpow_gt_0 radix2 n) as Pn. rewrite R4.
  refine (conj _ _).
  { replace (-127) with (-1 + -126) by ring. rewrite bpow_plus. change (bpow radix2 (-1)) with (/ 2)%R.
    apply Rlt_le_trans with (val t * bpow radix2 (-126))%R; [apply Rmult_lt_compat_r; [apply bpow_gt_0|exact Th]|].
    apply Rmult_le_compat_l; [lra|]. apply bpow_le. exact Ln. }
  destruct (scaled_fract z Fz Bz) as (Fr & Dr & Br & Pr & Nr). cbv zeta in Fr, Dr, Br, Pr, Nr.
  set (rr := fmul z c_LN_2) in *. clearbody rr.
  set (s := (val x - IZR n * ln 2)%R).
  assert (Ds : (Rabs (val rr - s) <= 0.0000041)%R).
  { pose proof ln2_bounds as LB.
    replace (val rr - s)%R with ((val rr - val z * ln 2) + ((val y - val x * (12102203 / 8388608)) * ln 2) + val x * ((12102203 / 8388608) * ln 2 - 1))%R
      by (unfold s; rewrite Vz; ring).
    assert (T1 : (Rabs ((val y - val x * (12102203 / 8388608)) * ln 2) <= bpow radix2 (-18) * 0.6932)%R).
    { rewrite Rabs_mult. apply Rmult_le_compat; try apply Rabs_pos; [exact E18|apply Rabs_le; lra]. }
    assert (T2 : (Rabs (val x * (12102203 / 8388608 * ln 2 - 1)) <= 88.73 * 0.0000000134)%R).
    { rewrite Rabs_mult. apply Rmult_le_compat; try apply Rabs_pos; apply Rabs_le; lra. }
    revert T1. bpow_lit. intros T1. eapply Rle_trans; [apply Rabs_triang|]. eapply Rle_trans; [apply Rplus_le_compat_r, Rabs_triang|]. lra. }
  rewrite (exp_scale (val x) n). fold s.
  assert (G : forall a, (Rabs (val t - exp s) <= a * exp s)%R ->
     (Rabs (val t * bpow radix2 n - exp s * bpow radix2 n) <= a * (exp s * bpow radix2 n))%R).
  { intros a Ha. rewrite <- Rmult_minus_distr_r, Rabs_mult, (Rabs_pos_eq (bpow radix2 n)) by lra.
    rewrite <- Rmult_assoc. apply Rmult_le_compat_r; [lra|exact Ha]. }
  apply Rabs_le_inv in Br as Br'.
  split; intros Sx; apply G.
  - assert (S0 : (0 <= val y)%R) by (rewrite Vy; apply rnd_nonneg; lra).
    assert (Z0 : (0 <= val z)%R).
    { rewrite Vz. unfold n. rewrite Ztrunc_floor by exact S0. pose proof (Zfloor_lb (val y)). lra. }
    specialize (Pr Z0). replace 0.000761%R with (0.000755 + 0.000006)%R by lra.
    apply (exp_rel (val t) (val rr) s); [apply expp_rel_pos; lra|lra|exact Br|exact Dt|exact Ds].
  - assert (S0 : (val y <= 0)%R).
    { rewrite Vy. rewrite <- (rnd_fmt 0) by apply generic_format_0. apply rnd_le. lra. }
    assert (Z0 : (val z <= 0)%R).
    { rewrite Vz. unfold n. rewrite Ztrunc_ceil by exact S0. pose proof (Zceil_ub (val y)). lra. }
    specialize (Nr Z0). replace 0.0023975%R with (0.0023915 + 0.000006)%R by lra.
    apply (exp_rel (val t) (val rr) s); [apply expp_rel_neg; lra|lra|exact Br|exact Dt|exact Ds].
Qed.

(** The shortcuts. *)
Lemma exp_shortcut : forall {E : Env} x, fin x -> exp_short x = true ->
  exists r, F32_exp x = Ok r /\ fin r /\ (/ 4 < val r)%R /\ (Rabs (val r - exp (val x)) <= 0.000005 * exp (val x))%R /\
   (- 1.1 <= val x <= 1.1)%R.
Proof.
  intros E x F S. unfold exp_short in S. unfold F32_exp, F32_exp_ln2_approx.
  destruct zero_val as [FZ VZ]. destruct one_val as [FO VO]. destruct mone_val as [FM VM].
  destruct (feq x F32_ZERO) eqn:Z.
  { exists F32_ONE. rewrite feq_R, VZ in Z by assumption. 
    assert (V : val x = 0%R) by (destruct (Req_bool_spec (val x) 0); [assumption|discriminate]).
    rewrite V, exp_0, VO. refine (conj eq_refl (conj FO _)). split; [lra|]. split; [apply Rabs_le; lra|lra]. }
  pose proof exp_1_bounds as E1. pose proof exp_m1_bounds as E2.
  destruct (flt (F32_abs (fsub x F32_ONE)) F32_EPSILON) eqn:N1.
  { apply near_const in N1; [|exact F|exact FO]. rewrite VO in N1.
    exists c_E. destruct c_E_val as [FE VE]. refine (conj eq_refl (conj FE _)). rewrite VE.
    assert (D : (Rabs (exp (val x - 1) - 1) <= 0.0000042)%R) by (apply exp_delta; lra).
    replace (exp (val x)) with (exp 1 * exp (val x - 1))%R by (rewrite <- exp_plus; f_equal; ring).
    set (d := exp (val x - 1)) in *. apply Rabs_le_inv in D. apply Rabs_lt_inv in N1.
    assert (K : (Rabs (exp 1 * (d - 1)) <= 2.7183 * 0.0000042)%R) by (rewrite Rabs_mult; apply Rmult_le_compat; try apply Rabs_pos; apply Rabs_le; lra).
    apply Rabs_le_inv in K. split; [lra|]. split; [apply Rabs_le; lra|lra]. }
  destruct (flt (F32_abs (fsub x (fneg F32_ONE))) F32_EPSILON) eqn:N2; [|discriminate].
  apply near_const in N2; [|exact F|exact FM]. rewrite VM in N2.
  assert (Q : fdiv F32_ONE c_E = from_bits 0x3EBC5AB2) by (apply to_bits_inj; vm_compute; reflexivity).
  exists (fdiv F32_ONE c_E). rewrite Q. lit 0x3EBC5AB2. refine (conj eq_refl (conj eq_refl _)).
  assert (D : (Rabs (exp (val x - -1) - 1) <= 0.0000042)%R) by (apply exp_delta; lra).
  replace (exp (val x)) with (exp (-1) * exp (val x - -1))%R by (rewrite <- exp_plus; f_equal; ring).
  set (d := exp (val x - -1)) in *. apply Rabs_le_inv in D. apply Rabs_lt_inv in N2.
  assert (K : (Rabs (exp (-1) * (d - 1)) <= 0.368 * 0.0000042)%R) by (rewrite Rabs_mult; apply Rmult_le_compat; try apply Rabs_pos; apply Rabs_le; lra).
  apply Rabs_le_inv in K. bpow_lit. split; [lra|]. split; [apply Rabs_le; lra|lra].
Qed.

Lemma exp_acc_pos : forall {E : Env} x, fin x -> (0 <= val x <= 88.72283172607421875)%R ->
  exists r, F32_exp x = Ok r /\ fin r /\ (0 < val r)%R /\ (Rabs (val r - exp (val x)) <= 0.000761 * exp (val x))%R.
Proof.
  intros E x F H. pose proof (exp_pos (val x)). destruct (exp_short x) eqn:S.
  - destruct (exp_shortcut x F S) as (r & A & B & C & D & _). exists r. refine (conj A (conj B _)). split; lra.
  - destruct (exp_regular x F S ltac:(lra)) as (r & A & B & C & D & _). exists r. refine (conj A (conj B _)).
    pose proof (bpow_gt_0 radix2 (-127)). split; [lra|]. apply D; lra.
Qed.

Lemma exp_acc_neg : forall {E : Env} x, fin x -> (- 87.3365478515625 <= val x <= 0)%R ->
  exists r, F32_exp x = Ok r /\ fin r /\ (0 < val r)%R /\ (Rabs (val r - exp (val x)) <= 0.0023975 * exp (val x))%R.
Proof.
  intros E x F H. pose proof (exp_pos (val x)). destruct (exp_short x) eqn:S.
  - destruct (exp_shortcut x F S) as (r & A & B & C & D & _). exists r. refine (conj A (conj B _)). split; lra.
  - destruct (exp_regular x F S ltac:(lra)) as (r & A & B & C & _ & D). exists r. refine (conj A (conj B _)).
    pose proof (bpow_gt_0 radix2 (-127)). split; [lra|]. apply D; lra.
Qed.

Lemma small_bits : forall m, 0 <= m <= 2 ^ 23 -> fin (from_bits m) /\ (0 <= val (from_bits m) <= bpow radix2 (-126))%R.
Proof.
  intros m Hm. destruct (pos_bits m ltac:(lia)) as (C1 & C2 & C3). destruct (pos_bits 0x800000 ltac:(lia)) as (D1 & D2 & D3).
  assert (F : fin (from_bits m)).
  { apply fin_bexp_lt. rewrite C3. unfold bexp. assert (m / 2 ^ 23 < 2) by (apply Z.div_lt_upper_bound; lia).
    assert (0 <= m / 2 ^ 23) by (apply Z.div_pos; lia). rewrite Z.mod_small; lia. }
  refine (conj F (conj (sign_val_pos _ C2) _)).
  pose proof (fle_bits (from_bits m) (from_bits 0x800000) C1 D1 C2 D2) as L. rewrite C3, D3, fle_R in L by (trivial; reflexivity).
  replace (val (from_bits 0x800000)) with (bpow radix2 (-126)) in L.
  - replace (m <=? 0x800000) with true in L by (symmetry; apply Z.leb_le; lia).
    destruct (Rle_bool_spec (val (from_bits m)) (bpow radix2 (-126))); [assumption|discriminate].
  - lit 0x800000. replace (bpow radix2 (-126)) with (bpow radix2 23 * bpow radix2 (-149))%R by (rewrite <- bpow_plus; reflexivity).
    change (bpow radix2 23) with 8388608%R. ring.
Qed.

Lemma small_bits' : forall m, 0 <= m <= 2 ^ 23 -> fin (from_bits m) /\ (0 <= val (from_bits m) <= bpow radix2 (-126))%R /\ sign_bit (from_bits m) = false.
Proof. intros m H. destruct (small_bits m H) as [A B]. destruct (pos_bits m ltac:(lia)) as (_ & C & _). exact (conj A (conj B C)). Qed.

(** Between the normal range and zero: a value in [0, 2^-126]. *)
Lemma exp_gradual_sign : forall {E : Env} x, fin x -> (- 88.029693603515625 < val x < - 87.3365478515625)%R ->
  exists r, F32_exp x = Ok r /\ fin r /\ (0 <= val r <= bpow radix2 (-126))%R /\ sign_bit r = false.
Proof.
  intros E x F H. assert (SH : exp_short x = false) by (apply short_far; [exact F|rewrite Rabs_left; lra]).
  destruct (y_fin x F ltac:(apply Rabs_le; lra)) as [Fy Vy].
  destruct (exp_main x SH) as (z & t & A & Z & Et & Fz & Bz & Sz & Ft & St & Dt & _ & N). cbv zeta in A, N.
  assert (Sx : sign_bit x = true).
  { destruct (sign_bit x) eqn:S; [reflexivity|]. pose proof (sign_val_pos x S). lra. }
  pose proof (y_sign x (fin_not_nan x F)) as Sy. rewrite Sx in Sy. destruct (N Sy) as [Bt Be].
  destruct y_consts as (_ & _ & _ & _ & _ & Q1 & _ & _ & Q2).
  assert (By : (-127 <= val (fmul x c_LOG2_E) <= -126)%R).
  { rewrite Vy. replace (-126)%R with (Ropp 126) by lra. replace (-127)%R with (Ropp 127) by lra. split; [rewrite <- Q2|rewrite <- Q1]; rewrite <- rnd_opp; apply rnd_le; lra. }
  set (y := fmul x c_LOG2_E) in *. clearbody y.
  rewrite trunc_i32_exact in A by (trivial; apply Rabs_lt; bpow_lit; lra).
  assert (Bn : -127 <= Ztrunc (val y) <= -126).
  { rewrite Ztrunc_ceil by lra. split; [apply le_IZR; pose proof (Zceil_ub (val y)); simpl IZR at 1; lra|apply Zceil_glb; simpl IZR; lra]. }
  set (n := Ztrunc (val y)) in *. clearbody n. rewrite A.
  destruct (Z.eq_dec (bexp (to_bits t)) 127) as [E7|E7].
  - assert (V : val t = 1%R).
    { pose proof (abs_ge_bpow t 0 Ft ltac:(lia) ltac:(lia)) as G. rewrite Rabs_pos_eq in G by lra. change (bpow radix2 0) with 1%R in G. lra. }
    rewrite finish_mid by (trivial; lia). replace (_ =? 128) with false by (symmetry; apply Z.eqb_neq; lia). rewrite andb_false_r.
    rewrite (one_bits t Ft St V). change (bexp (to_bits F32_ONE)) with 127. change (bman (to_bits F32_ONE)) with 0.
    eexists. refine (conj eq_refl (small_bits' _ _)). lia.
  - destruct (Z.eq_dec n (-127)) as [N7|N7].
    + subst n. exists F32_ZERO. pose proof (bexp_range (to_bits t)). rewrite finish_eq by lia. cbv zeta. rewrite clamp_i32_id by lia.
      replace (_ <? -127) with true by (symmetry; apply Z.ltb_lt; lia). destruct zero_val as [FZ VZ]. rewrite VZ.
      refine (conj eq_refl (conj FZ (conj _ eq_refl))). pose proof (bpow_gt_0 radix2 (-126)). lra.
    + rewrite finish_mid by (trivial; lia). replace (_ =? 128) with false by (symmetry; apply Z.eqb_neq; lia). rewrite andb_false_r.
      pose proof (bman_range (to_bits t)). eexists. refine (conj eq_refl (small_bits' _ _)). lia.
Qed.

Lemma exp_gradual : forall {E : Env} x, fin x -> (- 88.029693603515625 < val x < - 87.3365478515625)%R ->
  exists r, F32_exp x = Ok r /\ fin r /\ (0 <= val r <= bpow radix2 (-126))%R.
Proof. intros E x F H. destruct (exp_gradual_sign x F H) as (r & A & B & C & _). exists r. exact (conj A (conj B C)). Qed.
