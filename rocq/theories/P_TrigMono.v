(** * Proofs for C124: monotonicity of cos and sin *)

From Coq Require Import ZArith Reals Bool List Lia Lra Psatz.
From Flocq Require Import Core IEEE754.Binary IEEE754.Bits.
From Verif Require Import Base Spec SpecTrig Float F32Lemmas BitLemmas P_Trunc P_Floor Literals ErrLemmas P_RoundEdge NanLemmas P_Roots P_SumSq P_VecF32 RealBounds RealBounds2 P_Powf P_Quat P_Trig P_Atan P_Asin P_Sign P_Mono.
Open Scope Z_scope.

(** ** Spacing of floats *)

Lemma gap_above : forall k z z', fmt z -> fmt z' -> -126 <= k -> (bpow radix2 k <= z)%R -> (z < z')%R -> (bpow radix2 (k - 23) <= z' - z)%R.
Proof.
  intros k z z' F F' K L H.
  assert (S : (succ radix2 (FLT_exp (-149) 24) z <= z')%R) by (apply succ_le_lt; [apply FLT_exp_valid; reflexivity|exact F|exact F'|exact H]).
  rewrite succ_eq_pos in S by (pose proof (bpow_gt_0 radix2 k); lra).
  assert (U : (bpow radix2 (k - 23) <= ulp radix2 (FLT_exp (-149) 24) z)%R).
  { replace (bpow radix2 (k - 23)) with (ulp radix2 (FLT_exp (-149) 24) (bpow radix2 k)).
    - apply ulp_le_pos; [apply FLT_exp_valid; reflexivity|apply FLT_exp_monotone|apply bpow_ge_0|exact L].
    - rewrite ulp_bpow. f_equal. unfold FLT_exp. lia. }
  lra.
Qed.

Lemma gap_below : forall k z, fmt z -> -125 <= k -> (z < bpow radix2 k)%R -> (z <= bpow radix2 k - bpow radix2 (k - 24))%R.
Proof.
  intros k z F K H. assert (P : pred radix2 (FLT_exp (-149) 24) (bpow radix2 k) = (bpow radix2 k - bpow radix2 (k - 24))%R).
  { rewrite pred_bpow. f_equal. f_equal. unfold FLT_exp. lia. }
  rewrite <- P. apply pred_ge_gt; [apply FLT_exp_valid; reflexivity|exact F|apply fmt_bpow; lia|exact H].
Qed.

(** ** The correction z + 0.225 z (|z| - 1), on the nose *)

Definition kC : R := (15099494 / 67108864)%R.
Definition CR (z : R) : R := rnd (z + rnd (rnd (kC * z) * rnd (Rabs z - 1))).

Lemma CR_odd : forall z, CR (- z) = (- CR z)%R.
Proof.
  intros z. unfold CR. rewrite Rabs_Ropp. replace (kC * - z)%R with (- (kC * z))%R by ring. rewrite rnd_opp.
  replace (- rnd (kC * z) * rnd (Rabs z - 1))%R with (- (rnd (kC * z) * rnd (Rabs z - 1)))%R by ring. rewrite rnd_opp.
  replace (- z + - rnd (rnd (kC * z) * rnd (Rabs z - 1)))%R with (- (z + rnd (rnd (kC * z) * rnd (Rabs z - 1))))%R by ring. apply rnd_opp.
Qed.

Lemma CR_0 : CR 0 = 0%R.
Proof. unfold CR. rewrite Rmult_0_r. assert (Z : rnd 0 = 0%R) by (apply rnd_fmt, generic_format_0). rewrite Z, Rmult_0_l, Z, Rplus_0_r. exact Z. Qed.

(** The subtracted part, with the factor 1 - z frozen. *)
Lemma corr_step : forall k z g, -100 <= k -> (0 <= g <= 1)%R -> (0 <= z <= bpow radix2 (k + 1))%R ->
  let f := rnd (kC * z) in (Rabs (f - kC * z) <= bpow radix2 (k - 26))%R /\ (Rabs (rnd (f * g) - f * g) <= bpow radix2 (k - 26))%R /\ (0 <= f)%R.
Proof.
  intros k z g K G Z f. assert (P1 : (bpow radix2 (k + 1) = 4 * bpow radix2 (k - 1))%R) by (replace (k + 1) with (2 + (k - 1)) by lia; rewrite bpow_plus; reflexivity).
  pose proof (bpow_gt_0 radix2 (k - 1)) as P0.
  assert (B1 : (0 <= kC * z <= bpow radix2 (k - 1))%R) by (unfold kC; lra).
  assert (F0 : (0 <= f)%R) by (apply rnd_nonneg; lra).
  assert (B2 : (f <= bpow radix2 (k - 1))%R).
  { rewrite <- (rnd_fmt (bpow radix2 (k - 1))) by (apply fmt_bpow; lia). apply rnd_le. lra. }
  replace (k - 26) with (k - 1 - 25) by lia. split; [|split; [|exact F0]].
  - apply rnd_err; [lia|]. rewrite Rabs_pos_eq by lra. lra.
  - apply rnd_err; [lia|]. rewrite Rabs_pos_eq by (apply Rmult_le_pos; lra). nra.
Qed.

Lemma CR_mono_pos : forall z z', fmt z -> fmt z' -> (bpow radix2 (-90) <= z)%R -> (z <= z' <= 1)%R -> (CR z <= CR z')%R.
Proof.
  intros z z' F F' L [H H1]. pose proof (bpow_gt_0 radix2 (-90)) as P90. destruct (Rle_lt_or_eq_dec _ _ H) as [Lt|Eq]; [|subst; lra]. unfold CR. apply rnd_le.
  rewrite !Rabs_pos_eq by lra. set (g := rnd (1 - z)).
  assert (G1 : rnd (z - 1) = (- g)%R) by (unfold g; rewrite <- rnd_opp; f_equal; ring).
  assert (G : (0 <= g <= 1)%R).
  { unfold g. split; [apply rnd_nonneg; lra|]. rewrite <- (rnd_fmt 1) at 2 by exact (fmt_bpow 0 ltac:(lia)). apply rnd_le. lra. }
  assert (G2 : (- g <= rnd (z' - 1))%R) by (rewrite <- G1; apply rnd_le; lra).
  rewrite G1. replace (rnd (kC * z) * - g)%R with (- (rnd (kC * z) * g))%R by ring. rewrite rnd_opp.
  assert (kC0 : (0 < kC < 0.2251)%R) by (unfold kC; lra).
  assert (F0' : (0 <= rnd (kC * z'))%R) by (apply rnd_nonneg; apply Rmult_le_pos; lra).
  assert (Step : (- rnd (rnd (kC * z') * g) <= rnd (rnd (kC * z') * rnd (z' - 1)))%R).
  { rewrite <- rnd_opp. apply rnd_le. replace (- (rnd (kC * z') * g))%R with (rnd (kC * z') * - g)%R by ring. apply Rmult_le_compat_l; assumption. }
  enough (D : (rnd (rnd (kC * z') * g) - rnd (rnd (kC * z) * g) <= z' - z)%R) by lra.
  assert (M : forall d e e', (rnd (kC * z') <= kC * z' + e')%R -> (kC * z - e <= rnd (kC * z))%R -> (0 <= e + e')%R -> (kC * z' - kC * z + (e + e') <= d)%R -> (rnd (kC * z') * g - rnd (kC * z) * g <= d)%R).
  { intros d e e' A B C Dd. replace (rnd (kC * z') * g - rnd (kC * z) * g)%R with ((rnd (kC * z') - rnd (kC * z)) * g)%R by ring.
    assert (0 <= kC * z' - kC * z)%R by (rewrite <- Rmult_minus_distr_l; apply Rmult_le_pos; lra).
    apply Rle_trans with ((kC * z' - kC * z + (e + e')) * g)%R; [apply Rmult_le_compat_r; lra|]. nra. }
  (* binades *)
  destruct (mag radix2 z) as [e Me]. specialize (Me ltac:(lra)). rewrite Rabs_pos_eq in Me by lra.
  destruct (mag radix2 z') as [e' Me']. specialize (Me' ltac:(lra)). rewrite Rabs_pos_eq in Me' by lra.
  assert (E : -90 < e) by (apply (lt_bpow radix2); lra).
  assert (E' : e <= e').
  { destruct (Z_le_gt_dec e e') as [A|A]; [exact A|]. exfalso. assert (bpow radix2 e' <= bpow radix2 (e - 1))%R by (apply bpow_le; lia). lra. }
  destruct (Z.eq_dec e e') as [<-|Ne].
  - pose proof (gap_above (e - 1) z z' F F' ltac:(lia) (proj1 Me) Lt) as Gp. replace (e - 1 - 23) with (e - 24) in Gp by lia.
    destruct (corr_step (e - 1) z g ltac:(lia) G ltac:(replace (e - 1 + 1) with e by lia; lra)) as (A1 & A2 & _).
    destruct (corr_step (e - 1) z' g ltac:(lia) G ltac:(replace (e - 1 + 1) with e by lia; lra)) as (B1 & B2 & _).
    replace (e - 1 - 26) with (e - 27) in * by lia. assert (P : (bpow radix2 (e - 24) = 8 * bpow radix2 (e - 27))%R) by (replace (e - 24) with (3 + (e - 27)) by lia; rewrite bpow_plus; reflexivity).
    pose proof (bpow_gt_0 radix2 (e - 27)) as P0. apply Rabs_le_inv in A1. apply Rabs_le_inv in A2. apply Rabs_le_inv in B1. apply Rabs_le_inv in B2.
    assert (kC * z' - kC * z <= 0.2251 * (z' - z))%R by nra.
    pose proof (M _ (bpow radix2 (e - 27)) (bpow radix2 (e - 27)) ltac:(lra) ltac:(lra) ltac:(lra) (Rle_refl _)). lra.
  - assert (Z1 : (z <= bpow radix2 (e' - 1) - bpow radix2 (e' - 1 - 24))%R).
    { apply gap_below; [exact F|lia|]. apply Rlt_le_trans with (bpow radix2 e); [lra|apply bpow_le; lia]. }
    destruct (corr_step (e - 1) z g ltac:(lia) G ltac:(replace (e - 1 + 1) with e by lia; lra)) as (A1 & A2 & _).
    destruct (corr_step (e' - 1) z' g ltac:(lia) G ltac:(replace (e' - 1 + 1) with e' by lia; lra)) as (B1 & B2 & _).
    assert (Q : (bpow radix2 (e - 1 - 26) <= bpow radix2 (e' - 28))%R) by (apply bpow_le; lia).
    replace (e' - 1 - 26) with (1 + (e' - 28)) in * by lia. replace (e' - 1 - 24) with (3 + (e' - 28)) in Z1 by lia. rewrite bpow_plus in *.
    change (bpow radix2 1) with 2%R in *. change (bpow radix2 3) with 8%R in *.
    pose proof (bpow_gt_0 radix2 (e' - 28)) as P0. apply Rabs_le_inv in A1. apply Rabs_le_inv in A2. apply Rabs_le_inv in B1. apply Rabs_le_inv in B2.
    assert (kC * z' - kC * z <= 0.2251 * (z' - z))%R by nra.
    set (p := bpow radix2 (e' - 28)) in *. set (q := bpow radix2 (e - 1 - 26)) in *.
    pose proof (M _ q (2 * p)%R ltac:(lra) ltac:(lra) ltac:(unfold q; pose proof (bpow_gt_0 radix2 (e - 1 - 26)); lra) (Rle_refl _)). lra.
Qed.

Definition grid (z : R) : Prop := fmt z /\ (z = 0 \/ bpow radix2 (-90) <= Rabs z)%R /\ (Rabs z <= 1)%R.

Lemma CR_nonneg : forall z, fmt z -> (0 <= z <= 1)%R -> (0 <= CR z)%R.
Proof.
  intros z F H. unfold CR. apply rnd_nonneg. rewrite Rabs_pos_eq by lra.
  assert (K : (0 <= rnd (kC * z) <= z)%R).
  { split; [apply rnd_nonneg; unfold kC; lra|]. rewrite <- (rnd_fmt z F) at 2. apply rnd_le. unfold kC. lra. }
  assert (W : (-1 <= rnd (z - 1) <= 0)%R).
  { split.
    - replace (-1)%R with (rnd (-1)); [apply rnd_le; lra|]. apply rnd_fmt. exact (fmt_opp _ (fmt_bpow 0 ltac:(lia))).
    - rewrite <- (rnd_fmt 0) by apply generic_format_0. apply rnd_le. lra. }
  assert (V : (- z <= rnd (rnd (kC * z) * rnd (z - 1)))%R).
  { rewrite <- (rnd_fmt (- z)) by (apply fmt_opp; exact F). apply rnd_le. nra. }
  lra.
Qed.

Lemma CR_mono : forall z z', grid z -> grid z' -> (z <= z')%R -> (CR z <= CR z')%R.
Proof.
  intros z z' (F & Z & B) (F' & Z' & B') H. apply Rabs_le_inv in B. apply Rabs_le_inv in B'.
  destruct (Rle_or_lt 0 z) as [P|N].
  - destruct Z as [Z|Z].
    + subst z. rewrite CR_0. apply CR_nonneg; [exact F'|lra].
    + rewrite Rabs_pos_eq in Z by lra. apply CR_mono_pos; trivial; lra.
  - destruct (Rle_or_lt 0 z') as [P'|N'].
    + apply Rle_trans with 0%R; [|apply CR_nonneg; [exact F'|lra]]. rewrite <- (Ropp_involutive z), CR_odd.
      pose proof (CR_nonneg (- z) (fmt_opp _ F) ltac:(lra)). lra.
    + rewrite <- (Ropp_involutive z), <- (Ropp_involutive z'), (CR_odd (- z)), (CR_odd (- z')). apply Ropp_le_contravar.
      apply CR_mono_pos; try (apply fmt_opp; assumption); try lra. destruct Z' as [Z'|Z']; [lra|]. rewrite Rabs_left in Z' by exact N'. exact Z'.
Qed.

(** ** The stages of the cosine as real functions *)

Definition kP : R := (10680707 / 67108864)%R.
Definition TT (x : R) : R := rnd (x * kP).
Definition RR (t : R) : R := rnd (t - rnd (/ 4 + IZR (Zfloor (rnd (t + / 4))))).
Definition PA (r : R) : R := rnd (r * rnd (16 * rnd (Rabs r - / 2))).


Lemma cos_real : forall {E : Env} x, fin x -> (Rabs (val x) <= 1048576)%R ->
  fin (F32_cos x) /\ val (F32_cos x) = CR (PA (RR (TT (val x)))) /\ val (fmul x (fdiv c_FRAC_1_PI c_2)) = TT (val x) /\ (Rabs (TT (val x)) <= 1048576)%R /\ (Rabs (PA (RR (TT (val x)))) <= 1)%R.
Proof.
  intros E x Fx Hx. destruct (cos_bounded x Fx Hx) as [Fc _]. split; [exact Fc|].
  destruct (cos_reduce x Fx Hx) as (n & Fr & Hr & _). destruct (cos_par_bounded _ Fr Hr) as [Fp Hp].
  destruct inv2pi_val as [Fk Vk]. destruct c_0_25_val as [Fq Vq]. destruct c_0_5_val as [F5 V5]. destruct c_16_val as [F16 V16]. destruct c_0_225_val as [Fc2 Vc2]. destruct one_val as [F1 V1].
  change 1048576%R with (bpow radix2 20) in *.
  assert (B1 : (Rabs (val x * kP) <= bpow radix2 20)%R).
  { rewrite Rabs_mult, (Rabs_pos_eq kP) by (unfold kP; lra). pose proof (Rabs_pos (val x)). unfold kP. lra. }
  destruct (fmul_R x _ Fx Fk) as [Ft Vt]; [rewrite Vk; exact (small_lt_128 20 _ ltac:(lia) B1)|]. rewrite Vk in Vt. fold kP in Vt. fold (TT (val x)) in Vt.
  assert (B2 : (Rabs (TT (val x)) <= bpow radix2 20)%R) by (apply rnd_abs_le; [lia|exact B1]).
  assert (P20 : bpow radix2 20 = 1048576%R) by reflexivity. assert (P21 : bpow radix2 21 = 2097152%R) by reflexivity. assert (P22 : bpow radix2 22 = 4194304%R) by reflexivity.
  assert (VR : val (cos_red x) = RR (TT (val x))).
  { unfold cos_red in *. remember (fmul x (fdiv c_FRAC_1_PI c_2)) as t eqn:HT. clear HT. rewrite <- Vt in *. clear Vt.
    pose proof (Rabs_le_inv _ _ B2) as B2'.
    assert (A1 : (Rabs (val t + val c_0_25) <= bpow radix2 21)%R) by (rewrite Vq; apply Rabs_le; lra).
    destruct (fadd_R t c_0_25 Ft Fq (small_lt_128 21 _ ltac:(lia) A1)) as [Fs Vs].
    pose proof (rnd_abs_le 21 _ ltac:(lia) A1) as A2. rewrite <- Vs in A2.
    assert (B3 : (Rabs (val (fadd t c_0_25)) <= bpow radix2 31)%R).
    { eapply Rle_trans; [exact A2|]. apply bpow_le. lia. }
    destruct (floor_exact _ Fs B3) as [Ff Vf]. rewrite Vs, Vq in Vf. rewrite Vs, Vq in A2.
    pose proof (Zfloor_lb (rnd (val t + / 4))) as L1. pose proof (Zfloor_ub (rnd (val t + / 4))) as L2. apply Rabs_le_inv in A2.
    assert (A3 : (Rabs (val c_0_25 + val (F32_floor (fadd t c_0_25))) <= bpow radix2 22)%R) by (rewrite Vq, Vf; apply Rabs_le; lra).
    destruct (fadd_R c_0_25 _ Fq Ff (small_lt_128 22 _ ltac:(lia) A3)) as [Fg Vg].
    pose proof (rnd_abs_le 22 _ ltac:(lia) A3) as A4. rewrite <- Vg in A4. apply Rabs_le_inv in A4.
    assert (A5 : (Rabs (val t - val (fadd c_0_25 (F32_floor (fadd t c_0_25)))) <= bpow radix2 23)%R).
    { change (bpow radix2 23) with 8388608%R. apply Rabs_le. lra. }
    destruct (fsub_R t _ Ft Fg (small_lt_128 23 _ ltac:(lia) A5)) as [_ Vr]. rewrite Vr, Vg, Vq, Vf. reflexivity. }
  assert (VP : val (cos_par (cos_red x)) = PA (RR (TT (val x)))).
  { rewrite <- VR. unfold cos_par in *. remember (cos_red x) as r eqn:HRR. clear HRR VR.
    assert (Fa : fin (F32_abs r)) by (unfold fin; rewrite abs_fin; exact Fr). pose proof (Rabs_pos (val r)) as P0.
    assert (A1 : (Rabs (val (F32_abs r) - val c_0_5) <= bpow radix2 0)%R) by (rewrite V5, abs_val; change (bpow radix2 0) with 1%R; apply Rabs_le; lra).
    destruct (fsub_R _ _ Fa F5 (small_lt_128 0 _ ltac:(lia) A1)) as [Fs Vs].
    pose proof (rnd_abs_le 0 _ ltac:(lia) A1) as A2. rewrite <- Vs in A2.
    rewrite (fmul_fin_val _ _ Fr (mul_fin_r _ _ Fp) Fp).
    rewrite (fmul_fin_val _ _ F16 Fs (mul_fin_r _ _ Fp)), Vs, V16, V5, abs_val. reflexivity. }
  assert (HPA : (Rabs (PA (RR (TT (val x)))) <= 1)%R) by (rewrite <- VP; exact Hp).
  split; [|exact (conj Vt (conj B2 HPA))].
  rewrite cos_split in *. rewrite <- VP. remember (cos_par (cos_red x)) as z eqn:HZ. clear HZ VP VR.
  destruct (add_fin_both _ _ Fc) as [_ Fm].
  rewrite (fadd_fin_val _ _ Fp Fm Fc).
  rewrite (fmul_fin_val _ _ (mul_fin_l _ _ Fm) (mul_fin_r _ _ Fm) Fm).
  rewrite (fmul_fin_val _ _ Fc2 Fp (mul_fin_l _ _ Fm)).
  assert (Fa : fin (F32_abs z)) by (unfold fin; rewrite abs_fin; exact Fp). pose proof (Rabs_pos (val z)) as P0.
  assert (A1 : (Rabs (val (F32_abs z) - val F32_ONE) <= bpow radix2 0)%R) by (rewrite V1, abs_val; change (bpow radix2 0) with 1%R; apply Rabs_le; lra).
  destruct (fsub_R _ _ Fa F1 (small_lt_128 0 _ ltac:(lia) A1)) as [_ Vs]. rewrite Vs, Vc2, V1, abs_val. reflexivity.
Qed.

(** ** Floats on a grid *)

Lemma fmt_grid : forall j t, fmt t -> -126 <= j -> (bpow radix2 j <= Rabs t)%R -> exists M, t = (IZR M * bpow radix2 (j - 23))%R.
Proof.
  intros j t F J H. assert (N : t <> 0%R) by (intros ->; rewrite Rabs_R0 in H; pose proof (bpow_gt_0 radix2 j); lra).
  pose proof (mag_ge_bpow radix2 t (j + 1)) as Mg. replace (j + 1 - 1) with j in Mg by lia. specialize (Mg H).
  unfold generic_format in F. unfold F2R in F. cbn [Fnum Fexp] in F. set (m := Ztrunc (scaled_mantissa radix2 (FLT_exp (-149) 24) t)) in *.
  set (e := cexp radix2 (FLT_exp (-149) 24) t) in *. assert (Ee : j - 23 <= e) by (unfold e, cexp, FLT_exp; lia).
  exists (m * 2 ^ (e - (j - 23))). rewrite mult_IZR. rewrite (IZR_Zpower radix2) by lia. rewrite Rmult_assoc, <- bpow_plus. replace (e - (j - 23) + (j - 23)) with e by lia. exact F.
Qed.

Lemma rnd_abs_ge : forall k r, -149 <= k -> (bpow radix2 k <= Rabs r)%R -> (bpow radix2 k <= Rabs (rnd r))%R.
Proof. intros k r K H. unfold rnd. apply abs_round_ge_generic; [apply FLT_exp_valid; reflexivity|apply valid_rnd_N|apply fmt_bpow; exact K|exact H]. Qed.

Definition fine (r : R) : Prop := exists M, r = (IZR M * bpow radix2 (-25))%R.
Lemma p25 : bpow radix2 (-25) = (/ 33554432)%R. Proof. reflexivity. Qed.

Lemma fine_of : forall t, fmt t -> (/ 4 <= Rabs t)%R -> fine t.
Proof. intros t F H. destruct (fmt_grid (-2) t F ltac:(lia)) as [M HM]; [change (bpow radix2 (-2)) with (/ 4)%R; exact H|]. exists M. exact HM. Qed.
Lemma fine_fmt : forall r, fine r -> (Rabs r <= / 2)%R -> fmt r.
Proof.
  intros r [M ->] H. apply fmt_scaled; [|lia]. rewrite Rabs_mult, (Rabs_pos_eq (bpow radix2 (-25))), p25 in H by apply bpow_ge_0. rewrite <- abs_IZR in H. apply le_IZR.
  change (IZR (2 ^ 24)) with 16777216%R. lra.
Qed.
Lemma fine_sub : forall r s, fine r -> fine s -> fine (r - s)%R.
Proof. intros r s [M ->] [K ->]. exists (M - K). rewrite minus_IZR. ring. Qed.
Lemma fine_abs : forall r, fine r -> fine (Rabs r).
Proof. intros r [M ->]. exists (Z.abs M). rewrite Rabs_mult, (Rabs_pos_eq (bpow radix2 (-25))) by apply bpow_ge_0. rewrite abs_IZR. reflexivity. Qed.
Lemma fine_IZR4 : forall n, fine (IZR n + / 4)%R.
Proof. intros n. exists (n * 33554432 + 8388608). rewrite plus_IZR, mult_IZR, p25. lra. Qed.

Lemma PA_fine : forall r, fine r -> (Rabs r <= / 2)%R -> PA r = rnd (16 * r * (Rabs r - / 2)) /\ grid (PA r).
Proof.
  intros r Fr H. pose proof (Rabs_pos r) as P0.
  assert (FH : fine (Rabs r - / 2)) by (apply fine_sub; [apply fine_abs; exact Fr|exists 16777216; rewrite p25; lra]).
  assert (FF : fmt (Rabs r - / 2)) by (apply fine_fmt; [exact FH|apply Rabs_le; lra]).
  assert (EQ : PA r = rnd (16 * r * (Rabs r - / 2))).
  { unfold PA. rewrite (rnd_fmt _ FF), (rnd_fmt _ (fmt_16 _ FF)). f_equal. ring. }
  split; [exact EQ|]. rewrite EQ. split; [apply fmt_rnd|].
  assert (AB : Rabs (16 * r * (Rabs r - / 2)) = (16 * Rabs r * (/ 2 - Rabs r))%R).
  { rewrite !Rabs_mult, (Rabs_pos_eq 16), (Rabs_left1 (Rabs r - / 2)) by lra. ring. }
  split.
  - destruct Fr as [M HM]. destruct FH as [K HK].
    destruct (Z.eq_dec M 0) as [Z0|NM].
    { left. rewrite HM, Z0. rewrite Rmult_0_l. rewrite Rmult_0_r, Rmult_0_l. apply rnd_fmt, generic_format_0. }
    destruct (Z.eq_dec K 0) as [Z0|NK].
    { left. rewrite HK, Z0. rewrite Rmult_0_l, Rmult_0_r. apply rnd_fmt, generic_format_0. }
    right. apply rnd_abs_ge; [lia|]. rewrite !Rabs_mult. rewrite HK, HM, (Rabs_pos_eq 16), !Rabs_mult, (Rabs_pos_eq (bpow radix2 (-25))), <- !abs_IZR by (lra || apply bpow_ge_0).
    assert (M1 : (1 <= IZR (Z.abs M))%R) by (apply IZR_le; lia). assert (K1 : (1 <= IZR (Z.abs K))%R) by (apply IZR_le; lia).
    assert (B : (bpow radix2 (-90) <= 16 * (1 * bpow radix2 (-25)) * (1 * bpow radix2 (-25)))%R).
    { rewrite !Rmult_1_l, Rmult_assoc, <- bpow_plus. change 16%R with (bpow radix2 4). rewrite <- bpow_plus. apply bpow_le. lia. }
    eapply Rle_trans; [exact B|]. pose proof (bpow_gt_0 radix2 (-25)) as P25. set (p := bpow radix2 (-25)) in *.
    assert (1 * p <= IZR (Z.abs M) * p)%R by (apply Rmult_le_compat_r; lra). assert (1 * p <= IZR (Z.abs K) * p)%R by (apply Rmult_le_compat_r; lra).
    apply Rmult_le_compat; lra.
  - change 1%R with (bpow radix2 0). apply rnd_abs_le; [lia|]. rewrite AB. change (bpow radix2 0) with 1%R. pose proof (Rle_0_sqr (Rabs r - / 4)) as S. unfold Rsqr in S. lra.
Qed.

(** ** The reduction on half turns *)

Definition small (n : Z) : Prop := -1048577 <= n <= 1048577.

Lemma fmt_quarter : forall n k, small n -> 0 <= k <= 3 -> fmt (IZR n + IZR k * / 4).
Proof.
  intros n k N K. replace (IZR n + IZR k * / 4)%R with (IZR (4 * n + k) * bpow radix2 (-2))%R.
  - apply fmt_scaled; [unfold small in N; change (2 ^ 24) with 16777216; lia|lia].
  - rewrite plus_IZR, mult_IZR. change (bpow radix2 (-2)) with (/ 4)%R. field.
Qed.
Lemma fmt_int : forall n, small n -> fmt (IZR n).
Proof. intros n N. pose proof (fmt_quarter n 0 N ltac:(lia)) as F. rewrite Rmult_0_l, Rplus_0_r in F. exact F. Qed.
Lemma fmt_q1 : forall n, small n -> fmt (/ 4 + IZR n).
Proof. intros n N. pose proof (fmt_quarter n 1 N ltac:(lia)) as F. rewrite Rmult_1_l, Rplus_comm in F. exact F. Qed.

Lemma Zfloor_is : forall n r, (IZR n <= r < IZR n + 1)%R -> Zfloor r = n.
Proof. intros n r H. apply Zfloor_imp. rewrite plus_IZR. exact H. Qed.

(** Just below a quarter turn short of [n] the addition of 1/4 is exact. *)
Lemma add_quarter_exact : forall n t, fmt t -> small n -> (IZR n - / 2 <= t < IZR n - / 4)%R -> rnd (t + / 4) = (t + / 4)%R.
Proof.
  intros n t F N H.
  assert (J : exists j, -2 <= j <= 21 /\ (bpow radix2 j <= Rabs t)%R /\ (Rabs (t + / 4) <= bpow radix2 (j + 1))%R).
  { destruct (Z_lt_le_dec 1 n) as [L|L].
    - exists (Z.log2 (n - 1)). destruct (Z.log2_spec (n - 1) ltac:(lia)) as [L1 L2].
      assert (J0 : 0 <= Z.log2 (n - 1)) by apply Z.log2_nonneg.
      assert (J1 : Z.log2 (n - 1) <= 21).
      { change 21 with (Z.log2 (2 ^ 21)). apply Z.log2_le_mono. unfold small in N. cbn. lia. }
      split; [lia|]. apply IZR_le in L1. assert (L3 : n <= 2 ^ Z.succ (Z.log2 (n - 1))) by lia. apply IZR_le in L3.
      rewrite (IZR_Zpower radix2) in L1 by lia. rewrite (IZR_Zpower radix2) in L3 by lia. rewrite minus_IZR in L1. unfold Z.succ in L3.
      assert (2 <= IZR n)%R by (apply IZR_le; lia). rewrite !Rabs_pos_eq by lra. split; lra.
    - destruct (Z.eq_dec n 1) as [->|N1].
      + exists (-1). change (bpow radix2 (-1)) with (/ 2)%R. change (bpow radix2 (-1 + 1)) with 1%R. rewrite !Rabs_pos_eq by lra. repeat split; try lia; lra.
      + destruct (Z.eq_dec n 0) as [->|N0].
        * exists (-2). change (bpow radix2 (-2)) with (/ 4)%R. change (bpow radix2 (-2 + 1)) with (/ 2)%R. rewrite (Rabs_left t), (Rabs_left1 (t + / 4)) by lra. repeat split; try lia; lra.
        * exists (Z.log2 (- n)). destruct (Z.log2_spec (- n) ltac:(lia)) as [L1 L2].
          assert (J0 : 0 <= Z.log2 (- n)) by apply Z.log2_nonneg.
          assert (J1 : Z.log2 (- n) <= 21).
          { change 21 with (Z.log2 (2 ^ 21)). apply Z.log2_le_mono. unfold small in N. cbn. lia. }
          split; [lia|]. apply IZR_le in L1. assert (L3 : - n + 1 <= 2 ^ Z.succ (Z.log2 (- n))) by lia. apply IZR_le in L3.
          rewrite (IZR_Zpower radix2) in L1 by lia. rewrite (IZR_Zpower radix2) in L3 by lia. rewrite opp_IZR in L1. rewrite plus_IZR, opp_IZR in L3. unfold Z.succ in L3.
          assert (IZR n <= -1)%R by (apply IZR_le; lia). rewrite (Rabs_left t), (Rabs_left1 (t + / 4)) by lra. split; lra. }
  destruct J as (j & J & J1 & J2). destruct (fmt_grid j t F ltac:(lia) J1) as [M HM].
  apply rnd_fmt. assert (Q : (/ 4 = IZR (2 ^ (21 - j)) * bpow radix2 (j - 23))%R).
  { rewrite (IZR_Zpower radix2) by lia. rewrite <- bpow_plus. replace (21 - j + (j - 23)) with (-2) by lia. reflexivity. }
  assert (S : (t + / 4 = IZR (M + 2 ^ (21 - j)) * bpow radix2 (j - 23))%R) by (rewrite plus_IZR, Rmult_plus_distr_r, <- Q, <- HM; reflexivity).
  rewrite S. apply fmt_scaled; [|lia]. rewrite S, Rabs_mult, (Rabs_pos_eq (bpow radix2 (j - 23))), <- abs_IZR in J2 by apply bpow_ge_0.
  replace (j + 1) with (24 + (j - 23)) in J2 by lia. rewrite bpow_plus in J2. apply Rmult_le_reg_r in J2; [|apply bpow_gt_0]. apply le_IZR. exact J2.
Qed.

Lemma RR_floor : forall n t, small n -> Zfloor (rnd (t + / 4)) = n -> RR t = rnd (t - (/ 4 + IZR n)).
Proof. intros n t N H. unfold RR. rewrite H, (rnd_fmt (/ 4 + IZR n)) by (apply fmt_q1; exact N). reflexivity. Qed.

Lemma RR_up : forall n t, fmt t -> small (n - 1) -> small n -> (IZR n - / 2 <= t <= IZR n)%R ->
  ((t < IZR n - / 4)%R /\ RR t = rnd (t - (/ 4 + IZR (n - 1))) /\ (/ 4 <= RR t <= / 2)%R) \/
  ((IZR n - / 4 <= t)%R /\ RR t = rnd (t - (/ 4 + IZR n)) /\ (- / 2 <= RR t <= - / 4)%R).
Proof.
  intros n t F N1 N H.
  assert (f4 : fmt (/ 4)) by exact (fmt_bpow (-2) ltac:(lia)). assert (f2 : fmt (/ 2)) by exact (fmt_bpow (-1) ltac:(lia)).
  destruct (Rlt_or_le t (IZR n - / 4)) as [L|L]; [left|right].
  - split; [exact L|]. assert (R1 : RR t = rnd (t - (/ 4 + IZR (n - 1)))).
    { apply RR_floor; [exact N1|]. rewrite (add_quarter_exact n t F N) by lra. apply Zfloor_is. rewrite minus_IZR. lra. }
    split; [exact R1|]. rewrite R1, minus_IZR. split.
    + rewrite <- (rnd_fmt _ f4) at 1. apply rnd_le. lra.
    + rewrite <- (rnd_fmt _ f2). apply rnd_le. lra.
  - split; [exact L|]. assert (R1 : RR t = rnd (t - (/ 4 + IZR n))).
    { apply RR_floor; [exact N|]. apply Zfloor_is. split.
      - rewrite <- (rnd_fmt (IZR n)) by (apply fmt_int; exact N). apply rnd_le. lra.
      - apply Rle_lt_trans with (/ 4 + IZR n)%R; [|lra]. rewrite <- (rnd_fmt (/ 4 + IZR n)) by (apply fmt_q1; exact N). apply rnd_le. lra. }
    split; [exact R1|]. rewrite R1. split.
    + rewrite <- (rnd_fmt (- / 2)) by (apply fmt_opp; exact f2). apply rnd_le. lra.
    + rewrite <- (rnd_fmt (- / 4)) by (apply fmt_opp; exact f4). apply rnd_le. lra.
Qed.

Lemma PA_up : forall r r', fine r -> fine r' -> (- / 2 <= r <= r')%R -> (r' <= - / 4)%R -> (0 <= PA r <= PA r')%R.
Proof.
  intros r r' F F' H H'. destruct (PA_fine r F ltac:(apply Rabs_le; lra)) as [-> _]. destruct (PA_fine r' F' ltac:(apply Rabs_le; lra)) as [-> _].
  rewrite !Rabs_left by lra. split; [apply rnd_nonneg; nra|apply rnd_le; nra].
Qed.
Lemma PA_opp : forall r, PA (- r) = (- PA r)%R.
Proof. intros r. unfold PA. rewrite Rabs_Ropp. rewrite <- rnd_opp. f_equal. ring. Qed.
Lemma fine_opp : forall r, fine r -> fine (- r).
Proof. intros r [M ->]. exists (- M). rewrite opp_IZR. ring. Qed.

Lemma half_up : forall n t t', fmt t -> fmt t' -> small (n - 1) -> small n -> (IZR n - / 2 <= t)%R -> (t <= t' <= IZR n)%R -> (CR (PA (RR t)) <= CR (PA (RR t')))%R.
Proof.
  intros n t t' F F' N1 N H H'.
  assert (Gr : forall s, fmt s -> (IZR n - / 2 <= s <= IZR n)%R -> fine (RR s) /\ (Rabs (RR s) <= / 2)%R).
  { intros s Fs Hs. assert (FR : fmt (RR s)) by apply fmt_rnd. destruct (RR_up n s Fs N1 N Hs) as [(_ & _ & B)|(_ & _ & B)].
    - split; [apply fine_of; [exact FR|rewrite Rabs_pos_eq; lra]|apply Rabs_le; lra].
    - split; [apply fine_of; [exact FR|rewrite Rabs_left; lra]|apply Rabs_le; lra]. }
  destruct (Gr t F ltac:(lra)) as [G1 G2]. destruct (Gr t' F' ltac:(lra)) as [G1' G2'].
  destruct (PA_fine _ G1 G2) as [_ W]. destruct (PA_fine _ G1' G2') as [_ W'].
  apply CR_mono; [exact W|exact W'|].
  destruct (RR_up n t F N1 N ltac:(lra)) as [(A & E & B)|(A & E & B)]; destruct (RR_up n t' F' N1 N ltac:(lra)) as [(A' & E' & B')|(A' & E' & B')].
  - assert (L : (RR t <= RR t')%R) by (rewrite E, E'; apply rnd_le; lra).
    pose proof (PA_up (- RR t') (- RR t) (fine_opp _ G1') (fine_opp _ G1) ltac:(lra) ltac:(lra)) as Q. rewrite !PA_opp in Q. lra.
  - pose proof (PA_up (- RR t) (- RR t) (fine_opp _ G1) (fine_opp _ G1) ltac:(lra) ltac:(lra)) as Q. rewrite !PA_opp in Q.
    pose proof (PA_up (RR t') (RR t') G1' G1' ltac:(lra) ltac:(lra)) as Q'. lra.
  - exfalso. lra.
  - assert (L : (RR t <= RR t')%R) by (rewrite E, E'; apply rnd_le; lra).
    pose proof (PA_up (RR t) (RR t') G1 G1' ltac:(lra) ltac:(lra)). lra.
Qed.

(** Falling half turns. *)
Lemma RR_down : forall n t, small n -> (IZR n <= t <= IZR n + / 2)%R -> RR t = rnd (t - (/ 4 + IZR n)) /\ (Rabs (RR t) <= / 4)%R.
Proof.
  intros n t N H. assert (R1 : RR t = rnd (t - (/ 4 + IZR n))).
  { apply RR_floor; [exact N|]. apply Zfloor_is. split.
    - rewrite <- (rnd_fmt (IZR n)) by (apply fmt_int; exact N). apply rnd_le. lra.
    - apply Rle_lt_trans with (IZR n + 3 * / 4)%R; [|lra]. rewrite <- (rnd_fmt (IZR n + 3 * / 4)) by (apply fmt_quarter; [exact N|lia]). apply rnd_le. lra. }
  split; [exact R1|]. rewrite R1. change (/ 4)%R with (bpow radix2 (-2)) at 2. apply rnd_abs_le; [lia|]. change (bpow radix2 (-2)) with (/ 4)%R. apply Rabs_le. lra.
Qed.

Lemma PA_down : forall r r', fine r -> fine r' -> (- / 4 <= r <= r')%R -> (r' <= / 4)%R -> (PA r' <= PA r)%R.
Proof.
  intros r r' F F' H H'. destruct (PA_fine r F ltac:(apply Rabs_le; lra)) as [-> _]. destruct (PA_fine r' F' ltac:(apply Rabs_le; lra)) as [-> _].
  apply rnd_le. destruct (Rle_or_lt 0 r) as [A|A]; destruct (Rle_or_lt 0 r') as [B|B].
  - rewrite !Rabs_pos_eq by lra. nra.
  - lra.
  - rewrite (Rabs_left r) by lra. rewrite (Rabs_pos_eq r') by lra. nra.
  - rewrite !Rabs_left by lra. nra.
Qed.

Lemma half_down : forall n t t', fmt t -> fmt t' -> small n -> (IZR n <= t)%R -> (t <= t' <= IZR n + / 2)%R -> (/ 4 <= Rabs t)%R -> (/ 4 <= Rabs t')%R ->
  (CR (PA (RR t')) <= CR (PA (RR t)))%R.
Proof.
  intros n t t' F F' N H H' Q Q'.
  assert (Gr : forall s, fmt s -> (IZR n <= s <= IZR n + / 2)%R -> (/ 4 <= Rabs s)%R -> fine (RR s) /\ (Rabs (RR s) <= / 4)%R /\ RR s = (s - (/ 4 + IZR n))%R).
  { intros s Fs Hs Qs. destruct (RR_down n s N Hs) as [E B].
    assert (fi : fine (s - (/ 4 + IZR n))) by (apply fine_sub; [apply fine_of; assumption|rewrite Rplus_comm; apply fine_IZR4]).
    assert (E2 : RR s = (s - (/ 4 + IZR n))%R) by (rewrite E; apply rnd_fmt; apply fine_fmt; [exact fi|apply Rabs_le; lra]).
    split; [rewrite E2; exact fi|]. split; [exact B|exact E2]. }
  destruct (Gr t F ltac:(lra) Q) as (G1 & G2 & G3). destruct (Gr t' F' ltac:(lra) Q') as (G1' & G2' & G3').
  destruct (PA_fine _ G1 ltac:(lra)) as [_ W]. destruct (PA_fine _ G1' ltac:(lra)) as [_ W'].
  apply CR_mono; [exact W'|exact W|]. apply Rabs_le_inv in G2. apply Rabs_le_inv in G2'. apply PA_down; [exact G1|exact G1'| |]; lra.
Qed.

(** ** The falling half turn next to zero: antitone up to rounding *)

Lemma CR_err : forall z, (Rabs z <= 1)%R -> (Rabs (CR z - (z + kC * z * (Rabs z - 1))) <= 11 * bpow radix2 (-27))%R.
Proof.
  intros z H. pose proof (Rabs_pos z) as P0. unfold CR.
  assert (p2 : bpow radix2 (-2) = (/ 4)%R) by reflexivity. assert (p0 : bpow radix2 0 = 1%R) by reflexivity. assert (p1 : bpow radix2 1 = 2%R) by reflexivity.
  assert (A1 : (Rabs (kC * z) <= bpow radix2 (-2))%R) by (rewrite Rabs_mult, (Rabs_pos_eq kC), p2 by (unfold kC; lra); unfold kC; lra).
  assert (A2 : (Rabs (Rabs z - 1) <= bpow radix2 0)%R) by (rewrite p0; apply Rabs_le; lra).
  pose proof (rnd_err (-2) _ ltac:(lia) A1) as E1. pose proof (rnd_err 0 _ ltac:(lia) A2) as E2.
  pose proof (rnd_abs_le (-2) _ ltac:(lia) A1) as B1. pose proof (rnd_abs_le 0 _ ltac:(lia) A2) as B2.
  set (f := rnd (kC * z)) in *. set (g := rnd (Rabs z - 1)) in *.
  assert (A3 : (Rabs (f * g) <= bpow radix2 (-2))%R).
  { rewrite Rabs_mult. pose proof (Rabs_pos f). pose proof (Rabs_pos g). rewrite p2, p0 in *. nra. }
  pose proof (rnd_err (-2) _ ltac:(lia) A3) as E3. pose proof (rnd_abs_le (-2) _ ltac:(lia) A3) as B3.
  assert (A4 : (Rabs (z + rnd (f * g)) <= bpow radix2 1)%R).
  { eapply Rle_trans; [apply Rabs_triang|]. rewrite p1, p2 in *. lra. }
  pose proof (rnd_err 1 _ ltac:(lia) A4) as E4.
  change (-2 - 25) with (-27) in *. change (0 - 25) with (2 + -27) in E2. change (1 - 25) with (3 + -27) in E4.
  assert (Q2 : bpow radix2 (2 + -27) = (4 * bpow radix2 (-27))%R) by (rewrite bpow_plus; reflexivity). assert (Q3 : bpow radix2 (3 + -27) = (8 * bpow radix2 (-27))%R) by (rewrite bpow_plus; reflexivity).
  rewrite Q2 in E2. rewrite Q3 in E4. set (p := bpow radix2 (-27)) in *. rewrite p0 in *. rewrite p2 in *.
  replace (rnd (z + rnd (f * g)) - (z + kC * z * (Rabs z - 1)))%R with ((rnd (z + rnd (f * g)) - (z + rnd (f * g))) + (rnd (f * g) - f * g) + f * (g - (Rabs z - 1)) + (f - kC * z) * (Rabs z - 1))%R by ring.
  assert (M1 : (Rabs (f * (g - (Rabs z - 1))) <= p)%R) by (rewrite Rabs_mult; pose proof (Rabs_pos f); pose proof (Rabs_pos (g - (Rabs z - 1))); nra).
  assert (M2 : (Rabs ((f - kC * z) * (Rabs z - 1)) <= p)%R) by (rewrite Rabs_mult; pose proof (Rabs_pos (f - kC * z)); pose proof (Rabs_pos (Rabs z - 1)); nra).
  eapply Rle_trans; [apply Rabs_triang|]. eapply Rle_trans; [apply Rplus_le_compat_r; apply Rabs_triang|]. eapply Rle_trans; [apply Rplus_le_compat_r; apply Rplus_le_compat_r; apply Rabs_triang|]. lra.
Qed.

Lemma poly_step : forall z z' d, (Rabs z <= 1)%R -> (Rabs z' <= 1)%R -> (0 <= d)%R -> (z' <= z + d)%R ->
  (z' + kC * z' * (Rabs z' - 1) <= z + kC * z * (Rabs z - 1) + 1.2251 * d)%R.
Proof.
  intros z z' d B B' D H.
  assert (S : forall a b, (Rabs a <= 1)%R -> (Rabs b <= 1)%R -> (a <= b)%R -> (0 <= b * Rabs b - a * Rabs a <= 2 * (b - a))%R).
  { clear. intros a b A B H. apply Rabs_le_inv in A. apply Rabs_le_inv in B. destruct (Rle_or_lt 0 a) as [P|P]; destruct (Rle_or_lt 0 b) as [Q|Q].
    - rewrite !Rabs_pos_eq by lra. split; nra.
    - lra.
    - rewrite (Rabs_left a), (Rabs_pos_eq b) by lra. split; nra.
    - rewrite !Rabs_left by lra. split; nra. }
  replace (z' + kC * z' * (Rabs z' - 1))%R with ((1 - kC) * z' + kC * (z' * Rabs z'))%R by ring.
  replace (z + kC * z * (Rabs z - 1))%R with ((1 - kC) * z + kC * (z * Rabs z))%R by ring.
  assert (K : kC = (15099494 / 67108864)%R) by reflexivity.
  destruct (Rle_or_lt z' z) as [L|L].
  - pose proof (S z' z B' B L). rewrite K in *. lra.
  - pose proof (S z z' B B' ltac:(lra)). rewrite K in *. lra.
Qed.

Lemma PA_err : forall r, (Rabs r <= / 4)%R -> (Rabs (PA r - 16 * r * (Rabs r - / 2)) <= bpow radix2 (-23))%R.
Proof.
  intros r H. pose proof (Rabs_pos r) as P0. unfold PA. rewrite (rnd_fmt (16 * rnd (Rabs r - / 2))) by (apply fmt_16, fmt_rnd).
  assert (p1 : bpow radix2 (-1) = (/ 2)%R) by reflexivity. assert (q1 : bpow radix2 1 = 2%R) by reflexivity.
  assert (A1 : (Rabs (Rabs r - / 2) <= bpow radix2 (-1))%R) by (rewrite p1; apply Rabs_le; lra).
  pose proof (rnd_err (-1) _ ltac:(lia) A1) as E1. pose proof (rnd_abs_le (-1) _ ltac:(lia) A1) as B1. rewrite p1 in B1. set (q := rnd (Rabs r - / 2)) in *.
  assert (A2 : (Rabs (r * (16 * q)) <= bpow radix2 1)%R).
  { rewrite !Rabs_mult, (Rabs_pos_eq 16), q1 by lra. pose proof (Rabs_pos q). nra. }
  pose proof (rnd_err 1 _ ltac:(lia) A2) as E2. change (-1 - 25) with (-26) in E1. change (1 - 25) with (2 + -26) in E2. change (-23) with (3 + -26).
  rewrite bpow_plus in *. change (bpow radix2 2) with 4%R in E2. change (bpow radix2 3) with 8%R. pose proof (bpow_gt_0 radix2 (-26)) as PP. set (p := bpow radix2 (-26)) in *.
  replace (rnd (r * (16 * q)) - 16 * r * (Rabs r - / 2))%R with ((rnd (r * (16 * q)) - r * (16 * q)) + 16 * r * (q - (Rabs r - / 2)))%R by ring.
  assert (M : (Rabs (16 * r * (q - (Rabs r - / 2))) <= 4 * p)%R) by (rewrite !Rabs_mult, (Rabs_pos_eq 16) by lra; pose proof (Rabs_pos (q - (Rabs r - / 2))); nra).
  eapply Rle_trans; [apply Rabs_triang|]. lra.
Qed.

Lemma near_down : forall t t', (0 <= t)%R -> (t <= t' <= / 2)%R -> (Rabs (PA (RR t)) <= 1)%R -> (Rabs (PA (RR t')) <= 1)%R ->
  (CR (PA (RR t')) <= CR (PA (RR t)) + / 2097152)%R.
Proof.
  intros t t' H H' Z Z'. assert (N : small 0) by (unfold small; lia).
  destruct (RR_down 0 t N ltac:(lra)) as [E B]. destruct (RR_down 0 t' N ltac:(lra)) as [E' B'].
  assert (L : (RR t <= RR t')%R) by (rewrite E, E'; apply rnd_le; lra).
  pose proof (PA_err _ B) as PE. pose proof (PA_err _ B') as PE'. pose proof (CR_err _ Z) as CE. pose proof (CR_err _ Z') as CE'.
  set (r := RR t) in *. set (r' := RR t') in *. clear E E'. 
  assert (Q : (16 * r' * (Rabs r' - / 2) <= 16 * r * (Rabs r - / 2))%R).
  { apply Rabs_le_inv in B. apply Rabs_le_inv in B'. clear - B B' L. destruct (Rle_or_lt 0 r) as [A|A]; destruct (Rle_or_lt 0 r') as [C|C].
    - rewrite !Rabs_pos_eq by lra. nra.
    - lra.
    - rewrite (Rabs_left r) by lra. rewrite (Rabs_pos_eq r') by lra. nra.
    - rewrite !Rabs_left by lra. nra. }
  change (bpow radix2 (-23)) with (/ 8388608)%R in *. change (bpow radix2 (-27)) with (/ 134217728)%R in *.
  apply Rabs_le_inv in PE. apply Rabs_le_inv in PE'. apply Rabs_le_inv in CE. apply Rabs_le_inv in CE'.
  pose proof (poly_step (PA r) (PA r') (2 * / 8388608) Z Z' ltac:(lra) ltac:(lra)) as PS. lra.
Qed.

(** ** The theorems about the model *)

Lemma TT_mono : forall a b, (a <= b)%R -> (TT a <= TT b)%R.
Proof. intros a b H. apply rnd_le. unfold kP. lra. Qed.
Lemma TT_fmt : forall a, fmt (TT a).
Proof. intros a. apply fmt_rnd. Qed.

Lemma turns_is : forall x, turns x = TT (val x).
Proof. reflexivity. Qed.

Lemma cos_rising : forall {E : Env} x y n, fin x -> fin y -> (Rabs (val x) <= 1000000)%R -> (Rabs (val y) <= 1000000)%R -> (val x <= val y)%R ->
  (IZR n - / 2 <= turns x)%R -> (turns y <= IZR n)%R -> fin (F32_cos x) /\ fin (F32_cos y) /\ (val (F32_cos x) <= val (F32_cos y))%R.
Proof.
  intros E x y n Fx Fy Bx By H L U.
  destruct (cos_real x Fx ltac:(lra)) as (C1 & C2 & C3 & C4 & C5). destruct (cos_real y Fy ltac:(lra)) as (D1 & D2 & D3 & D4 & D5).
  rewrite turns_is in *. refine (conj C1 (conj D1 _)). rewrite C2, D2. pose proof (TT_mono _ _ H) as M.
  assert (KB : forall z, (Rabs z <= 1000000)%R -> (Rabs (TT z) <= 524288)%R).
  { intros z Hz. change 524288%R with (bpow radix2 19). apply rnd_abs_le; [lia|]. change (bpow radix2 19) with 524288%R. rewrite Rabs_mult, (Rabs_pos_eq kP) by (unfold kP; lra). unfold kP. lra. }
  pose proof (Rabs_le_inv _ _ (KB _ Bx)) as K1. pose proof (Rabs_le_inv _ _ (KB _ By)) as K2.
  assert (n <= 524289) by (apply le_IZR; lra). assert (-524289 <= n) by (apply le_IZR; lra).
  apply (half_up n); [apply TT_fmt|apply TT_fmt|unfold small; lia|unfold small; lia|lra|lra].
Qed.

Lemma cos_falling : forall {E : Env} x y n, fin x -> fin y -> (Rabs (val x) <= 1000000)%R -> (Rabs (val y) <= 1000000)%R -> (val x <= val y)%R ->
  (IZR n <= turns x)%R -> (turns y <= IZR n + / 2)%R -> (n = 0 -> (/ 4 <= turns x)%R) -> fin (F32_cos x) /\ fin (F32_cos y) /\ (val (F32_cos y) <= val (F32_cos x))%R.
Proof.
  intros E x y n Fx Fy Bx By H L U Q.
  destruct (cos_real x Fx ltac:(lra)) as (C1 & C2 & C3 & C4 & C5). destruct (cos_real y Fy ltac:(lra)) as (D1 & D2 & D3 & D4 & D5).
  rewrite turns_is in *. refine (conj C1 (conj D1 _)). rewrite C2, D2. pose proof (TT_mono _ _ H) as M.
  assert (KB : forall z, (Rabs z <= 1000000)%R -> (Rabs (TT z) <= 524288)%R).
  { intros z Hz. change 524288%R with (bpow radix2 19). apply rnd_abs_le; [lia|]. change (bpow radix2 19) with 524288%R. rewrite Rabs_mult, (Rabs_pos_eq kP) by (unfold kP; lra). unfold kP. lra. }
  pose proof (Rabs_le_inv _ _ (KB _ Bx)) as K1. pose proof (Rabs_le_inv _ _ (KB _ By)) as K2.
  assert (n <= 524289) by (apply le_IZR; lra). assert (-524289 <= n) by (apply le_IZR; lra).
  assert (W : (/ 4 <= Rabs (TT (val x)))%R /\ (/ 4 <= Rabs (TT (val y)))%R).
  { destruct (Z.eq_dec n 0) as [N0|N0].
    - specialize (Q N0). split; rewrite Rabs_pos_eq; lra.
    - destruct (Z_lt_le_dec n 0) as [A|A].
      + assert (IZR n <= -1)%R by (apply IZR_le; lia). split; rewrite Rabs_left; lra.
      + assert (1 <= IZR n)%R by (apply IZR_le; lia). split; rewrite Rabs_pos_eq; lra. }
  apply (half_down n); [apply TT_fmt|apply TT_fmt|unfold small; lia|lra|lra|apply W|apply W].
Qed.

Lemma cos_falling_near : forall {E : Env} x y, fin x -> fin y -> (Rabs (val x) <= 1000000)%R -> (Rabs (val y) <= 1000000)%R -> (val x <= val y)%R ->
  (0 <= turns x)%R -> (turns y <= / 2)%R -> fin (F32_cos x) /\ fin (F32_cos y) /\ (val (F32_cos y) <= val (F32_cos x) + / 2097152)%R.
Proof.
  intros E x y Fx Fy Bx By H L U.
  destruct (cos_real x Fx ltac:(lra)) as (C1 & C2 & C3 & C4 & C5). destruct (cos_real y Fy ltac:(lra)) as (D1 & D2 & D3 & D4 & D5).
  rewrite turns_is in *. refine (conj C1 (conj D1 _)). rewrite C2, D2. pose proof (TT_mono _ _ H) as M.
  apply near_down; [exact L|lra|exact C5|exact D5].
Qed.

(** The f32 value of PI/2, times 1, 2 and 4. *)

Lemma rnd_up_to : forall k r, -124 <= k -> (bpow radix2 k - bpow radix2 (k - 26) <= r <= bpow radix2 k)%R -> rnd r = bpow radix2 k.
Proof.
  intros k r K H. pose proof (bpow_gt_0 radix2 k) as P. pose proof (bpow_gt_0 radix2 (k - 26)) as P'.
  assert (Q : (bpow radix2 (k - 24) = 4 * bpow radix2 (k - 26))%R) by (replace (k - 24) with (2 + (k - 26)) by lia; rewrite bpow_plus; reflexivity).
  assert (Q2 : (bpow radix2 (k - 25) = 2 * bpow radix2 (k - 26))%R) by (replace (k - 25) with (1 + (k - 26)) by lia; rewrite bpow_plus; reflexivity).
  assert (Q3 : (bpow radix2 k = 67108864 * bpow radix2 (k - 26))%R) by (replace k with (26 + (k - 26)) at 1 by lia; rewrite bpow_plus; reflexivity).
  assert (U : (rnd r <= bpow radix2 k)%R) by (rewrite <- (rnd_fmt (bpow radix2 k)) by (apply fmt_bpow; lia); apply rnd_le; lra).
  pose proof (rnd_err k r ltac:(lia) ltac:(rewrite Rabs_pos_eq; lra)) as Er. apply Rabs_le_inv in Er.
  destruct (Rle_lt_or_eq_dec _ _ U) as [L|L]; [|exact L]. pose proof (gap_below k (rnd r) (fmt_rnd r) ltac:(lia) L). lra.
Qed.

Lemma TT_h : TT half_pi = (/ 4)%R.
Proof. unfold TT. change (/ 4)%R with (bpow radix2 (-2)). apply rnd_up_to; [lia|]. change (bpow radix2 (-2)) with (/ 4)%R. change (bpow radix2 (-2 - 26)) with (/ 268435456)%R. unfold half_pi, kP. lra. Qed.
Lemma TT_2h : TT (2 * half_pi) = (/ 2)%R.
Proof. unfold TT. change (/ 2)%R with (bpow radix2 (-1)). apply rnd_up_to; [lia|]. change (bpow radix2 (-1)) with (/ 2)%R. change (bpow radix2 (-1 - 26)) with (/ 134217728)%R. unfold half_pi, kP. lra. Qed.
Lemma TT_4h : TT (4 * half_pi) = 1%R.
Proof. unfold TT. change 1%R with (bpow radix2 0). apply rnd_up_to; [lia|]. change (bpow radix2 0) with 1%R. change (bpow radix2 (0 - 26)) with (/ 67108864)%R. unfold half_pi, kP. lra. Qed.
Lemma TT_opp : forall x, TT (- x) = (- TT x)%R.
Proof. intros x. unfold TT. rewrite <- rnd_opp. f_equal. ring. Qed.
Lemma TT_0 : TT 0 = 0%R.
Proof. unfold TT. rewrite Rmult_0_l. apply rnd_fmt, generic_format_0. Qed.

Lemma turns_TT : forall x, fin x -> (Rabs (val x) <= 1000000)%R -> turns x = TT (val x).
Proof. reflexivity. Qed.

Lemma turns_close : forall x, (Rabs (turns x - val x / (2 * PI)) <= 0.000000015921 * Rabs (val x) + bpow radix2 (-150))%R.
Proof.
  intros x. rewrite turns_is. unfold TT, kP. pose proof (Rabs_pos (val x)) as P0.
  pose proof (rnd_err_mixed (val x * (10680707 / 67108864))) as R. rewrite u24_eq in R. rewrite (Rabs_mult (val x)), (Rabs_pos_eq (10680707 / 67108864)) in R by lra.
  replace (rnd (val x * (10680707 / 67108864)) - val x / (2 * PI))%R with ((rnd (val x * (10680707 / 67108864)) - val x * (10680707 / 67108864)) - val x * (/ PI / 2 - 10680707 / 67108864))%R by (field; apply PI_neq0).
  assert (K : (Rabs (val x * (/ PI / 2 - 10680707 / 67108864)) <= Rabs (val x) * 0.00000000643)%R).
  { rewrite Rabs_mult. apply Rmult_le_compat_l; [exact P0|]. pose proof inv_PI_bounds. apply Rabs_le. lra. }
  apply Rabs_le_inv in K. apply Rabs_le_inv in R. unfold u24 in *. apply Rabs_le. lra.
Qed.

Ltac bnd := apply Rabs_le; unfold half_pi in *; lra.

Lemma cos_up_0 : forall {E : Env} x y, fin x -> fin y -> (- (2 * half_pi) <= val x)%R -> (val x <= val y)%R -> (val y <= 0)%R -> fin (F32_cos x) /\ fin (F32_cos y) /\ (val (F32_cos x) <= val (F32_cos y))%R.
Proof.
  intros E x y Fx Fy A B C. apply (cos_rising x y 0 Fx Fy); [bnd|bnd|exact B| |].
  - rewrite turns_TT by (exact Fx || bnd). pose proof (TT_mono _ _ A) as T. rewrite TT_opp, TT_2h in T. lra.
  - rewrite turns_TT by (exact Fy || bnd). pose proof (TT_mono _ _ C) as T. rewrite TT_0 in T. lra.
Qed.
Lemma cos_up_1 : forall {E : Env} x y, fin x -> fin y -> (2 * half_pi <= val x)%R -> (val x <= val y)%R -> (val y <= 4 * half_pi)%R -> fin (F32_cos x) /\ fin (F32_cos y) /\ (val (F32_cos x) <= val (F32_cos y))%R.
Proof.
  intros E x y Fx Fy A B C. apply (cos_rising x y 1 Fx Fy); [bnd|bnd|exact B| |].
  - rewrite turns_TT by (exact Fx || bnd). pose proof (TT_mono _ _ A) as T. rewrite TT_2h in T. lra.
  - rewrite turns_TT by (exact Fy || bnd). pose proof (TT_mono _ _ C) as T. rewrite TT_4h in T. lra.
Qed.
Lemma cos_down_neg : forall {E : Env} x y, fin x -> fin y -> (- (4 * half_pi) <= val x)%R -> (val x <= val y)%R -> (val y <= - (2 * half_pi))%R -> fin (F32_cos x) /\ fin (F32_cos y) /\ (val (F32_cos y) <= val (F32_cos x))%R.
Proof.
  intros E x y Fx Fy A B C. apply (cos_falling x y (-1) Fx Fy); [bnd|bnd|exact B| | |discriminate].
  - rewrite turns_TT by (exact Fx || bnd). pose proof (TT_mono _ _ A) as T. rewrite TT_opp, TT_4h in T. lra.
  - rewrite turns_TT by (exact Fy || bnd). pose proof (TT_mono _ _ C) as T. rewrite TT_opp, TT_2h in T. lra.
Qed.
Lemma cos_down_quarter : forall {E : Env} x y, fin x -> fin y -> (half_pi <= val x)%R -> (val x <= val y)%R -> (val y <= 2 * half_pi)%R -> fin (F32_cos x) /\ fin (F32_cos y) /\ (val (F32_cos y) <= val (F32_cos x))%R.
Proof.
  intros E x y Fx Fy A B C. assert (T1 : (/ 4 <= turns x)%R) by (rewrite turns_TT by (exact Fx || bnd); pose proof (TT_mono _ _ A) as T; rewrite TT_h in T; exact T).
  apply (cos_falling x y 0 Fx Fy); [bnd|bnd|exact B|lra| |intros _; exact T1].
  rewrite turns_TT by (exact Fy || bnd). pose proof (TT_mono _ _ C) as T. rewrite TT_2h in T. lra.
Qed.
Lemma cos_down_near : forall {E : Env} x y, fin x -> fin y -> (0 <= val x)%R -> (val x <= val y)%R -> (val y <= 2 * half_pi)%R -> fin (F32_cos x) /\ fin (F32_cos y) /\ (val (F32_cos y) <= val (F32_cos x) + / 2097152)%R.
Proof.
  intros E x y Fx Fy A B C. apply (cos_falling_near x y Fx Fy); [bnd|bnd|exact B| |].
  - rewrite turns_TT by (exact Fx || bnd). pose proof (TT_mono _ _ A) as T. rewrite TT_0 in T. lra.
  - rewrite turns_TT by (exact Fy || bnd). pose proof (TT_mono _ _ C) as T. rewrite TT_2h in T. lra.
Qed.

(** Sine: the argument is shifted by PI/2. *)
Lemma shift_val : forall {E : Env} x, fin x -> (Rabs (val x) <= 100)%R -> fin (fsub x (fdiv c_PI c_2)) /\ val (fsub x (fdiv c_PI c_2)) = rnd (val x - half_pi).
Proof.
  intros E x Fx B. destruct halfpi_val as [Fh Vh]. fold half_pi in Vh. rewrite <- Vh. apply fsub_R; [exact Fx|exact Fh|]. apply (small_lt_128 7); [lia|]. rewrite Vh. change (bpow radix2 7) with 128%R. apply Rabs_le_inv in B. bnd.
Qed.
Lemma fmt_h : forall k, 0 <= k <= 2 -> fmt (bpow radix2 k * half_pi).
Proof.
  intros k K. replace (bpow radix2 k * half_pi)%R with (IZR 13176795 * bpow radix2 (k - 23))%R; [apply fmt_scaled; [cbn; lia|lia]|].
  replace (k - 23) with (k + -23) by lia. rewrite bpow_plus. change (bpow radix2 (-23)) with (/ 8388608)%R. unfold half_pi, Rdiv. ring.
Qed.
Lemma fmt_2h : fmt (2 * half_pi). Proof. exact (fmt_h 1 ltac:(lia)). Qed.
Lemma fmt_4h : fmt (4 * half_pi). Proof. exact (fmt_h 2 ltac:(lia)). Qed.
Lemma fmt_1h : fmt half_pi. Proof. pose proof (fmt_h 0 ltac:(lia)) as F. change (bpow radix2 0) with 1%R in F. rewrite Rmult_1_l in F. exact F. Qed.

Lemma shift_range : forall a b x, fmt a -> fmt b -> (a <= x - half_pi <= b)%R -> (a <= rnd (x - half_pi) <= b)%R.
Proof. intros a b x A B H. split; [rewrite <- (rnd_fmt a A) at 1|rewrite <- (rnd_fmt b B)]; apply rnd_le; lra. Qed.

Lemma sin_up : forall {E : Env} x y, fin x -> fin y -> (- half_pi <= val x)%R -> (val x <= val y)%R -> (val y <= half_pi)%R -> fin (F32_sin x) /\ fin (F32_sin y) /\ (val (F32_sin x) <= val (F32_sin y))%R.
Proof.
  intros E x y Fx Fy A B C. destruct (shift_val x Fx ltac:(bnd)) as [Sx Vx]. destruct (shift_val y Fy ltac:(bnd)) as [Sy Vy]. unfold F32_sin.
  assert (L : (rnd (val x - half_pi) <= rnd (val y - half_pi))%R) by (apply rnd_le; lra).
  pose proof (shift_range _ 0 (val x) (fmt_opp _ fmt_2h) (generic_format_0 _ _) ltac:(unfold half_pi in *; lra)) as Q.
  pose proof (shift_range _ 0 (val y) (fmt_opp _ fmt_2h) (generic_format_0 _ _) ltac:(unfold half_pi in *; lra)) as Q'.
  apply cos_up_0; rewrite ?Vx, ?Vy; trivial; lra.
Qed.
Lemma sin_down_near : forall {E : Env} x y, fin x -> fin y -> (half_pi <= val x)%R -> (val x <= val y)%R -> (val y <= 3 * half_pi)%R -> fin (F32_sin x) /\ fin (F32_sin y) /\ (val (F32_sin y) <= val (F32_sin x) + / 2097152)%R.
Proof.
  intros E x y Fx Fy A B C. destruct (shift_val x Fx ltac:(bnd)) as [Sx Vx]. destruct (shift_val y Fy ltac:(bnd)) as [Sy Vy]. unfold F32_sin.
  assert (L : (rnd (val x - half_pi) <= rnd (val y - half_pi))%R) by (apply rnd_le; lra).
  pose proof (shift_range 0 _ (val x) (generic_format_0 _ _) fmt_2h ltac:(unfold half_pi in *; lra)) as Q.
  pose proof (shift_range 0 _ (val y) (generic_format_0 _ _) fmt_2h ltac:(unfold half_pi in *; lra)) as Q'.
  apply cos_down_near; rewrite ?Vx, ?Vy; trivial; lra.
Qed.
Lemma sin_down_quarter : forall {E : Env} x y, fin x -> fin y -> (2 * half_pi <= val x)%R -> (val x <= val y)%R -> (val y <= 3 * half_pi)%R -> fin (F32_sin x) /\ fin (F32_sin y) /\ (val (F32_sin y) <= val (F32_sin x))%R.
Proof.
  intros E x y Fx Fy A B C. destruct (shift_val x Fx ltac:(bnd)) as [Sx Vx]. destruct (shift_val y Fy ltac:(bnd)) as [Sy Vy]. unfold F32_sin.
  assert (L : (rnd (val x - half_pi) <= rnd (val y - half_pi))%R) by (apply rnd_le; lra).
  pose proof (shift_range half_pi _ (val x) fmt_1h fmt_2h ltac:(unfold half_pi in *; lra)) as Q.
  pose proof (shift_range half_pi _ (val y) fmt_1h fmt_2h ltac:(unfold half_pi in *; lra)) as Q'.
  apply cos_down_quarter; rewrite ?Vx, ?Vy; trivial; lra.
Qed.
Lemma sin_down_neg : forall {E : Env} x y, fin x -> fin y -> (- (3 * half_pi) <= val x)%R -> (val x <= val y)%R -> (val y <= - half_pi)%R -> fin (F32_sin x) /\ fin (F32_sin y) /\ (val (F32_sin y) <= val (F32_sin x))%R.
Proof.
  intros E x y Fx Fy A B C. destruct (shift_val x Fx ltac:(bnd)) as [Sx Vx]. destruct (shift_val y Fy ltac:(bnd)) as [Sy Vy]. unfold F32_sin.
  assert (L : (rnd (val x - half_pi) <= rnd (val y - half_pi))%R) by (apply rnd_le; lra).
  pose proof (shift_range _ _ (val x) (fmt_opp _ fmt_4h) (fmt_opp _ fmt_2h) ltac:(unfold half_pi in *; lra)) as Q.
  pose proof (shift_range _ _ (val y) (fmt_opp _ fmt_4h) (fmt_opp _ fmt_2h) ltac:(unfold half_pi in *; lra)) as Q'.
  apply cos_down_neg; rewrite ?Vx, ?Vy; trivial; lra.
Qed.

(** ** The bounds cannot be dropped: neighbouring floats whose images are the wrong way round *)

Lemma lt_of_flt : forall x y, fin x -> fin y -> flt x y = true -> (val x < val y)%R.
Proof. intros x y Fx Fy H. rewrite flt_R in H by assumption. destruct (Rlt_bool_spec (val x) (val y)); [assumption|discriminate]. Qed.

Lemma cos_not_antitone : forall {E : Env}, exists x y, fin x /\ fin y /\ (0 <= val x < val y)%R /\ (val y <= 1)%R /\ (val (F32_cos x) < val (F32_cos y))%R.
Proof.
  intros E. exists (from_bits 0x3416CBE3), (from_bits 0x3416CBE4). split; [reflexivity|]. split; [reflexivity|].
  assert (L : (val (from_bits 0x3416CBE3) < val (from_bits 0x3416CBE4))%R) by (apply lt_of_flt; vm_compute; reflexivity).
  assert (Z : (val F32_ZERO < val (from_bits 0x3416CBE3))%R) by (apply lt_of_flt; vm_compute; reflexivity).
  assert (U : (val (from_bits 0x3416CBE4) < val F32_ONE)%R) by (apply lt_of_flt; vm_compute; reflexivity).
  change (val F32_ZERO) with 0%R in Z. rewrite (proj2 one_val) in U. split; [lra|]. split; [lra|].
  apply lt_of_flt; vm_compute; reflexivity.
Qed.

Lemma sin_not_antitone : forall {E : Env}, exists x y, fin x /\ fin y /\ (half_pi < val x < val y)%R /\ (val y <= 2)%R /\ (val (F32_sin x) < val (F32_sin y))%R.
Proof.
  intros E. exists (from_bits 0x3FC91F46), (from_bits 0x3FC91F47). split; [reflexivity|]. split; [reflexivity|].
  assert (L : (val (from_bits 0x3FC91F46) < val (from_bits 0x3FC91F47))%R) by (apply lt_of_flt; vm_compute; reflexivity).
  assert (Z : (val (fdiv c_PI c_2) < val (from_bits 0x3FC91F46))%R) by (apply lt_of_flt; vm_compute; reflexivity).
  assert (U : (val (from_bits 0x3FC91F47) < val c_2)%R) by (apply lt_of_flt; vm_compute; reflexivity).
  rewrite (proj2 halfpi_val) in Z. fold half_pi in Z. rewrite (proj2 c_2_val) in U. split; [lra|]. split; [lra|].
  apply lt_of_flt; vm_compute; reflexivity.
Qed.

(** ** All intervals together *)

Lemma cos_intervals : forall {E : Env},
  (forall x y, fin x -> fin y -> (- (2 * half_pi) <= val x)%R -> (val x <= val y)%R -> (val y <= 0)%R -> fin (F32_cos x) /\ fin (F32_cos y) /\ (val (F32_cos x) <= val (F32_cos y))%R) /\
  (forall x y, fin x -> fin y -> (2 * half_pi <= val x)%R -> (val x <= val y)%R -> (val y <= 4 * half_pi)%R -> fin (F32_cos x) /\ fin (F32_cos y) /\ (val (F32_cos x) <= val (F32_cos y))%R) /\
  (forall x y, fin x -> fin y -> (- (4 * half_pi) <= val x)%R -> (val x <= val y)%R -> (val y <= - (2 * half_pi))%R -> fin (F32_cos x) /\ fin (F32_cos y) /\ (val (F32_cos y) <= val (F32_cos x))%R) /\
  (forall x y, fin x -> fin y -> (half_pi <= val x)%R -> (val x <= val y)%R -> (val y <= 2 * half_pi)%R -> fin (F32_cos x) /\ fin (F32_cos y) /\ (val (F32_cos y) <= val (F32_cos x))%R) /\
  (forall x y, fin x -> fin y -> (0 <= val x)%R -> (val x <= val y)%R -> (val y <= 2 * half_pi)%R -> fin (F32_cos x) /\ fin (F32_cos y) /\ (val (F32_cos y) <= val (F32_cos x) + / 2097152)%R).
Proof. intros E. exact (conj cos_up_0 (conj cos_up_1 (conj cos_down_neg (conj cos_down_quarter cos_down_near)))). Qed.

Lemma sin_intervals : forall {E : Env},
  (forall x y, fin x -> fin y -> (- half_pi <= val x)%R -> (val x <= val y)%R -> (val y <= half_pi)%R -> fin (F32_sin x) /\ fin (F32_sin y) /\ (val (F32_sin x) <= val (F32_sin y))%R) /\
  (forall x y, fin x -> fin y -> (- (3 * half_pi) <= val x)%R -> (val x <= val y)%R -> (val y <= - half_pi)%R -> fin (F32_sin x) /\ fin (F32_sin y) /\ (val (F32_sin y) <= val (F32_sin x))%R) /\
  (forall x y, fin x -> fin y -> (2 * half_pi <= val x)%R -> (val x <= val y)%R -> (val y <= 3 * half_pi)%R -> fin (F32_sin x) /\ fin (F32_sin y) /\ (val (F32_sin y) <= val (F32_sin x))%R) /\
  (forall x y, fin x -> fin y -> (half_pi <= val x)%R -> (val x <= val y)%R -> (val y <= 3 * half_pi)%R -> fin (F32_sin x) /\ fin (F32_sin y) /\ (val (F32_sin y) <= val (F32_sin x) + / 2097152)%R).
Proof. intros E. exact (conj sin_up (conj sin_down_neg (conj sin_down_quarter sin_down_near))). Qed.
