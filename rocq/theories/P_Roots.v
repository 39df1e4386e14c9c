(** * Proofs: sqrt, invsqrt, inv *)

From Coq Require Import ZArith Reals Bool List Lia Lra Psatz.
From Flocq Require Import Core IEEE754.BinarySingleNaN IEEE754.Binary IEEE754.Bits.
From Verif Require Import Base Spec Float F32Lemmas BitLemmas P_Trunc P_Floor Literals P_RoundEdge P_Euclid.
Open Scope Z_scope.

(** ** Positive normal numbers: t * 2^e with t in [1,2) *)

Lemma mk_val : forall Ex M, 1 <= Ex <= 254 -> 0 <= M < 2 ^ 23 ->
  let z := from_bits (Ex * 2 ^ 23 + M) in
  fin z /\ sign_bit z = false /\ to_bits z = Ex * 2 ^ 23 + M /\
  val z = ((1 + IZR M / IZR (2 ^ 23)) * bpow radix2 (Ex - 127))%R.
Proof.
  intros Ex M HE HM z. unfold z.
  assert (K : Ex * 2 ^ 23 + M = mkbits 0 Ex M) by (unfold mkbits; ring).
  rewrite K. destruct (mkbits_fields 0 Ex M) as (R & A & B & C); [lia|lia|lia|].
  destruct (val_from_bits _ R ltac:(lia)) as [F V].
  split; [assumption|]. split; [rewrite sign_bit_bsign, to_from_bits, A by assumption; reflexivity|].
  split; [apply to_from_bits; assumption|].
  rewrite V, (bval_pos _ _ _ A B C ltac:(lia)).
  replace (Ex - 127) with (23 + (Ex - 150)) by ring. rewrite bpow_plus, plus_IZR.
  change (bpow radix2 23) with (IZR (2 ^ 23)).
  field. apply IZR_neq. lia.
Qed.

(** Decomposition of a positive normal float. *)
Lemma normal_split : forall x, normal_pos x ->
  let Ex := bexp (to_bits x) in let M := bman (to_bits x) in
  1 <= Ex <= 254 /\ 0 <= M < 2 ^ 23 /\ to_bits x = Ex * 2 ^ 23 + M /\ sign_bit x = false /\
  val x = ((1 + IZR M / IZR (2 ^ 23)) * bpow radix2 (Ex - 127))%R.
Proof.
  intros x [Hx Hn] Ex M.
  assert (P : (0 < val x)%R) by (apply Rlt_le_trans with (2 := Hn); apply bpow_gt_0).
  assert (S : sign_bit x = false).
  { destruct (sign_bit x) eqn:S; trivial. pose proof (sign_val_neg x S). lra. }
  pose proof (bexp_ge x (-126) Hx ltac:(lia)) as G. rewrite Rabs_pos_eq in G by lra.
  specialize (G Hn). pose proof (proj1 (fin_bexp_lt x) Hx).
  pose proof (bman_range (to_bits x)) as HM.
  pose proof (bits_split _ (to_bits_range x)) as [T _].
  pose proof (sign_bit_bsign x) as SB. rewrite S in SB. symmetry in SB. apply Z.eqb_neq in SB.
  pose proof (bsign_range _ (to_bits_range x)).
  assert (T' : to_bits x = Ex * 2 ^ 23 + M) by (unfold Ex, M; lia).
  assert (HE : 1 <= Ex <= 254) by (unfold Ex; lia).
  repeat split; try lia; trivial.
  rewrite <- (from_to_bits x), T'. apply (mk_val Ex M HE HM).
Qed.

Lemma frac01 : forall M, 0 <= M < 2 ^ 23 -> (0 <= IZR M / IZR (2 ^ 23) < 1)%R.
Proof.
  intros M HM. assert (0 < IZR (2 ^ 23))%R by (apply IZR_lt; lia). split.
  - apply Rmult_le_pos; [apply IZR_le; lia|]. apply Rlt_le, Rinv_0_lt_compat. assumption.
  - apply Rmult_lt_reg_r with (IZR (2 ^ 23)); [assumption|].
    unfold Rdiv. rewrite Rmult_assoc, Rinv_l by lra. rewrite Rmult_1_r, Rmult_1_l. apply IZR_lt. lia.
Qed.

(** Halving a mantissa loses at most half a unit. *)
Lemma half_floor : forall M,
  exists d, (0 <= d <= / IZR (2 ^ 24))%R /\ (IZR (M / 2) / IZR (2 ^ 23) = IZR M / IZR (2 ^ 23) / 2 - d)%R.
Proof.
  intros M. exists (IZR (M mod 2) / IZR (2 ^ 24))%R.
  pose proof (Z.div_mod M 2 ltac:(lia)) as D. pose proof (Z.mod_pos_bound M 2 ltac:(lia)) as Bm.
  assert (P24 : (0 < IZR (2 ^ 24))%R) by (apply IZR_lt; lia).
  split.
  - pose proof (Rinv_0_lt_compat _ P24).
    assert (0 <= IZR (M mod 2) <= 1)%R by (split; apply IZR_le; lia).
    unfold Rdiv. split; nra.
  - rewrite D at 2. rewrite plus_IZR, mult_IZR.
    change (2 ^ 24) with (2 ^ 23 * 2). rewrite mult_IZR. field. apply IZR_neq. lia.
Qed.

(** ** sqrt *)

Lemma sqrt_pos_bits : forall {E : Env} x, is_nan x = false -> sign_bit x = false ->
  F32_sqrt x = Ok (from_bits ((to_bits x + 0x3F800000) / 2)).
Proof.
  intros E x Hn S. unfold F32_sqrt.
  assert (G : fge x F32_ZERO = true).
  { destruct (is_finite x) eqn:F.
    - rewrite fge_zero by assumption. apply Rle_bool_true. apply sign_val_pos. assumption.
    - destruct x as [s|s|s pl Hp|s m e Hb]; try discriminate.
      unfold sign_bit in S. simpl in S. subst s. reflexivity. }
  rewrite G. rewrite sign_bit_ge in S. apply Z.leb_gt in S. pose proof (to_bits_range x).
  rewrite arith_ok by (change (ity_min u32) with 0; change (ity_max u32) with 4294967295; lia).
  unfold bind. rewrite Z.shiftr_div_pow2 by lia. reflexivity.
Qed.

(** The two halves of the piecewise linear approximation. *)
Lemma sqrt_even : forall t d, (1 <= t < 2)%R -> (0 <= d <= / IZR (2 ^ 24))%R ->
  let y := (1 + ((t - 1) / 2 - d))%R in
  (0 < y)%R /\ (y * y <= 9 / 8 * t)%R /\ ((1 - / IZR (2 ^ 24)) * (1 - / IZR (2 ^ 24)) * t <= y * y)%R.
Proof.
  intros t d Ht Hd y. unfold y.
  change (IZR (2 ^ 24)) with 16777216%R in *.
  set (u := (/ 16777216)%R) in *. assert (U : (0 < u < / 1000000)%R) by (unfold u; lra).
  split; [lra|]. split; [nra|].
  assert (Y : ((1 - u) * ((1 + t) / 2) <= 1 + ((t - 1) / 2 - d))%R) by nra.
  assert (Y2 : (t <= ((1 + t) / 2) * ((1 + t) / 2))%R) by nra.
  assert (Y3 : (0 <= (1 - u) * ((1 + t) / 2))%R) by nra.
  apply Rle_trans with (((1 - u) * ((1 + t) / 2)) * ((1 - u) * ((1 + t) / 2)))%R; [|nra].
  assert (0 <= (1 - u) * (1 - u))%R by nra. nra.
Qed.

Lemma sqrt_odd : forall t d, (1 <= t < 2)%R -> (0 <= d <= / IZR (2 ^ 24))%R ->
  let y := (1 + (t / 2 - d))%R in
  (0 < y)%R /\ (y * y <= 9 / 8 * (2 * t))%R /\
  ((1 - / IZR (2 ^ 24)) * (1 - / IZR (2 ^ 24)) * (2 * t) <= y * y)%R.
Proof.
  intros t d Ht Hd y. unfold y.
  change (IZR (2 ^ 24)) with 16777216%R in *.
  set (u := (/ 16777216)%R) in *. assert (U : (0 < u < / 1000000)%R) by (unfold u; lra).
  split; [lra|]. split; [nra|].
  assert (Y : ((1 - u) * (1 + t / 2) <= 1 + (t / 2 - d))%R) by nra.
  assert (Y2 : (2 * t <= (1 + t / 2) * (1 + t / 2))%R) by nra.
  assert (Y3 : (0 <= (1 - u) * (1 + t / 2))%R) by nra.
  apply Rle_trans with (((1 - u) * (1 + t / 2)) * ((1 - u) * (1 + t / 2)))%R; [|nra].
  assert (0 <= (1 - u) * (1 - u))%R by nra. nra.
Qed.

Lemma sqrt_square_bounds : forall {E : Env} x, normal_pos x ->
  exists z, F32_sqrt x = Ok z /\ normal_pos z /\
    (val z * val z <= 9 / 8 * val x)%R /\
    ((1 - bpow radix2 (-24)) * (1 - bpow radix2 (-24)) * val x <= val z * val z)%R.
Proof.
  intros E x Hx. pose proof (normal_split x Hx) as N. cbv zeta in N.
  set (Ex := bexp (to_bits x)) in *. set (M := bman (to_bits x)) in *.
  destruct N as (HE & HM & HT & HS & HV).
  rewrite sqrt_pos_bits by (trivial; apply fin_not_nan; apply Hx).
  eexists. split; [reflexivity|]. rewrite HT.
  pose proof (frac01 M HM) as HF. set (m := (IZR M / IZR (2 ^ 23))%R) in *.
  destruct (half_floor M) as (d & Hd & HH). fold m in HH.
  change (bpow radix2 (-24)) with (/ IZR (2 ^ 24))%R.
  destruct (Z.Even_or_Odd (Ex - 127)) as [[h Hh]|[h Hh]].
  - (* even exponent *)
    assert (B : (Ex * 2 ^ 23 + M + 0x3F800000) / 2 = (h + 127) * 2 ^ 23 + M / 2).
    { replace (Ex * 2 ^ 23 + M + 0x3F800000) with (M + ((h + 127) * 2 ^ 23) * 2) by lia.
      rewrite Z.div_add by lia. ring. }
    rewrite B.
    assert (HM2 : 0 <= M / 2 < 2 ^ 23) by (split; [apply Z.div_pos|apply Z.div_lt_upper_bound]; lia).
    destruct (mk_val (h + 127) (M / 2) ltac:(lia) HM2) as (F & S & _ & V).
    set (z := from_bits _) in *.
    replace (h + 127 - 127) with h in V by ring.
    rewrite HH in V.
    replace (m / 2)%R with ((1 + m - 1) / 2)%R in V by field.
    destruct (sqrt_even (1 + m) d ltac:(lra) Hd) as (Y0 & Y1 & Y2).
    set (y := (1 + ((1 + m - 1) / 2 - d))%R) in *.
    pose proof (bpow_gt_0 radix2 h) as Ph.
    assert (X : val x = ((1 + m) * (bpow radix2 h * bpow radix2 h))%R).
    { rewrite HV, Hh, <- bpow_plus. f_equal. f_equal. ring. }
    assert (ZZ : (val z * val z = (y * y) * (bpow radix2 h * bpow radix2 h))%R) by (rewrite V; ring).
    assert (P2 : (0 < bpow radix2 h * bpow radix2 h)%R) by (apply Rmult_lt_0_compat; assumption).
    split.
    { split; [assumption|]. rewrite V. apply Rle_trans with (bpow radix2 h); [apply bpow_le; lia|].
      assert (1 <= y)%R; [|nra].
      (* (M/2) is a natural number *)
      unfold y. replace ((1 + m - 1) / 2 - d)%R with (IZR (M / 2) / IZR (2 ^ 23))%R by (rewrite HH; field).
      pose proof (frac01 (M / 2) HM2). lra. }
    rewrite ZZ, X. split; nra.
  - (* odd exponent *)
    assert (B : (Ex * 2 ^ 23 + M + 0x3F800000) / 2 = (h + 127) * 2 ^ 23 + (2 ^ 22 + M / 2)).
    { replace (Ex * 2 ^ 23 + M + 0x3F800000) with (M + ((h + 127) * 2 ^ 23 + 2 ^ 22) * 2) by lia.
      rewrite Z.div_add by lia. ring. }
    rewrite B.
    assert (HM2 : 0 <= M / 2 < 2 ^ 22) by (split; [apply Z.div_pos|apply Z.div_lt_upper_bound]; lia).
    destruct (mk_val (h + 127) (2 ^ 22 + M / 2) ltac:(lia) ltac:(lia)) as (F & S & _ & V).
    set (z := from_bits _) in *.
    replace (h + 127 - 127) with h in V by ring.
    assert (Hy : (1 + IZR (2 ^ 22 + M / 2) / IZR (2 ^ 23) = 1 + ((1 + m) / 2 - d))%R).
    { rewrite plus_IZR. unfold Rdiv at 1. rewrite Rmult_plus_distr_r.
      change (IZR (M / 2) * / IZR (2 ^ 23))%R with (IZR (M / 2) / IZR (2 ^ 23))%R. rewrite HH.
      change (IZR (2 ^ 23)) with 8388608%R. change (IZR (2 ^ 22)) with 4194304%R. field. }
    rewrite Hy in V.
    destruct (sqrt_odd (1 + m) d ltac:(lra) Hd) as (Y0 & Y1 & Y2).
    set (y := (1 + ((1 + m) / 2 - d))%R) in *.
    pose proof (bpow_gt_0 radix2 h) as Ph.
    assert (X : val x = ((2 * (1 + m)) * (bpow radix2 h * bpow radix2 h))%R).
    { rewrite HV, Hh, <- bpow_plus. replace (2 * h + 1) with (1 + (h + h)) by ring.
      rewrite bpow_plus. change (bpow radix2 1) with 2%R. ring. }
    assert (ZZ : (val z * val z = (y * y) * (bpow radix2 h * bpow radix2 h))%R) by (rewrite V; ring).
    assert (P2 : (0 < bpow radix2 h * bpow radix2 h)%R) by (apply Rmult_lt_0_compat; assumption).
    split.
    { split; [assumption|]. rewrite V. apply Rle_trans with (bpow radix2 h); [apply bpow_le; lia|].
      assert (1 <= y)%R; [|nra].
      unfold y. change (IZR (2 ^ 24)) with 16777216%R in Hd. lra. }
    rewrite ZZ, X. split; nra.
Qed.

(** From squares to square roots. *)
Lemma sq_le_sqrt : forall z c x, (0 <= z)%R -> (0 <= c)%R -> (0 <= x)%R ->
  (z * z <= c * x)%R -> (z <= sqrt c * sqrt x)%R.
Proof.
  intros z c x Hz Hc Hx H. rewrite <- sqrt_mult by assumption.
  rewrite <- (sqrt_square z) by assumption. apply sqrt_le_1_alt. assumption.
Qed.
Lemma sqrt_le_sq : forall z c x, (0 <= z)%R -> (0 <= c)%R -> (0 <= x)%R ->
  (c * x <= z * z)%R -> (sqrt c * sqrt x <= z)%R.
Proof.
  intros z c x Hz Hc Hx H. rewrite <- sqrt_mult by assumption.
  rewrite <- (sqrt_square z) by assumption. apply sqrt_le_1_alt. assumption.
Qed.

Lemma normal_pos_gt0 : forall x, normal_pos x -> (0 < val x)%R.
Proof. intros x [_ H]. apply Rlt_le_trans with (2 := H). apply bpow_gt_0. Qed.

Lemma sqrt_accuracy : forall {E : Env} x, normal_pos x ->
  exists z, F32_sqrt x = Ok z /\ normal_pos z /\
    ((1 - bpow radix2 (-24)) * sqrt (val x) <= val z <= 1.06067 * sqrt (val x))%R.
Proof.
  intros E x Hx. destruct (sqrt_square_bounds x Hx) as (z & A & B & C & D).
  exists z. split; [assumption|]. split; [assumption|].
  pose proof (normal_pos_gt0 x Hx). pose proof (normal_pos_gt0 z B).
  pose proof (sqrt_pos (val x)) as S.
  assert (U : (0 <= 1 - bpow radix2 (-24))%R).
  { change (bpow radix2 (-24)) with (/ 16777216)%R. lra. }
  split.
  - apply sqrt_le_sq in D; try lra; [|apply Rmult_le_pos; assumption].
    rewrite sqrt_square in D by assumption. assumption.
  - apply sq_le_sqrt in C; try lra.
    apply Rle_trans with (1 := C). apply Rmult_le_compat_r; [assumption|].
    rewrite <- (sqrt_square 1.06067) by lra. apply sqrt_le_1_alt. lra.
Qed.

(** Order of non-negative floats is order of patterns. *)
Lemma fle_bits : forall x y, is_nan x = false -> is_nan y = false ->
  sign_bit x = false -> sign_bit y = false -> fle x y = (to_bits x <=? to_bits y).
Proof.
  assert (FB : forall x, fin x -> sign_bit x = false -> to_bits x < 0x7F800000).
  { intros x Hx S. rewrite sign_bit_ge in S. apply Z.leb_gt in S.
    pose proof (bits_split _ (to_bits_range x)) as [T _]. pose proof (bman_range (to_bits x)).
    pose proof (proj1 (fin_bexp_lt x) Hx). pose proof (bsign_range _ (to_bits_range x)).
    pose proof (bexp_range (to_bits x)). lia. }
  intros x y Nx Ny Sx Sy.
  destruct (is_finite x) eqn:Fx; destruct (is_finite y) eqn:Fy.
  - rewrite fle_R by assumption.
    pose proof (to_bits_range x). pose proof (to_bits_range y).
    pose proof (FB x Fx Sx). pose proof (FB y Fy Sy).
    destruct (Z.leb_spec (to_bits x) (to_bits y)) as [L|L].
    + apply Rle_bool_true. rewrite !val_bits by assumption. apply bval_mono; lia.
    + apply Rle_bool_false.
      assert (G : (val y <= val x)%R) by (rewrite !val_bits by assumption; apply bval_mono; lia).
      destruct (Rle_lt_or_eq_dec _ _ G) as [G'|G']; [assumption|]. exfalso.
      assert (x = y) by (apply fin_dec_eq; congruence). subst y. lia.
  - destruct y as [s|s|s pl Hp|s m e Hb]; try discriminate.
    unfold sign_bit in Sy; simpl in Sy; subst s.
    pose proof (FB x Fx Sx). change (to_bits (B754_infinity false)) with 0x7F800000.
    replace (to_bits x <=? 0x7F800000) with true by (symmetry; apply Z.leb_le; lia).
    destruct x as [s'|s'|s' pl' Hp'|s' m' e' Hb']; try discriminate; reflexivity.
  - destruct x as [s|s|s pl Hp|s m e Hb]; try discriminate.
    unfold sign_bit in Sx; simpl in Sx; subst s.
    pose proof (FB y Fy Sy). change (to_bits (B754_infinity false)) with 0x7F800000.
    replace (0x7F800000 <=? to_bits y) with false by (symmetry; apply Z.leb_gt; lia).
    destruct y as [s'|s'|s' pl' Hp'|s' m' e' Hb']; try discriminate; reflexivity.
  - destruct x as [s|s|s pl Hp|s m e Hb]; try discriminate.
    destruct y as [s'|s'|s' pl' Hp'|s' m' e' Hb']; try discriminate.
    unfold sign_bit in Sx, Sy; simpl in Sx, Sy; subst s s'. reflexivity.
Qed.

(** A pattern between 0 and that of infinity. *)
Lemma pos_bits : forall b, 0 <= b <= 0x7F800000 ->
  is_nan (from_bits b) = false /\ sign_bit (from_bits b) = false /\ to_bits (from_bits b) = b.
Proof.
  intros b Hb. assert (T : to_bits (from_bits b) = b) by (apply to_from_bits; lia).
  pose proof (bits_split b ltac:(lia)) as [S _]. pose proof (bman_range b).
  pose proof (bexp_range b). pose proof (bsign_range b ltac:(lia)).
  rewrite nan_fields, sign_bit_ge, T. repeat split.
  - destruct (Z.eq_dec (bexp b) 255) as [X|X].
    + replace (bman b) with 0 by lia. apply andb_false_r.
    + replace (bexp b =? 255) with false by (symmetry; apply Z.eqb_neq; lia). reflexivity.
  - apply Z.leb_gt. lia.
Qed.

Lemma nonneg_bits : forall x, is_nan x = false -> sign_bit x = false -> 0 <= to_bits x <= 0x7F800000.
Proof.
  intros x N S. pose proof (to_bits_range x) as R. split; [lia|].
  rewrite sign_bit_ge in S. apply Z.leb_gt in S.
  pose proof (bits_split _ R) as [T _]. pose proof (bman_range (to_bits x)).
  pose proof (bexp_range (to_bits x)). pose proof (bsign_range _ R).
  rewrite nan_fields in N. destruct (Z.eq_dec (bexp (to_bits x)) 255) as [X|X]; [|lia].
  rewrite X in N. simpl (255 =? 255) in N. apply negb_false_iff, Z.eqb_eq in N. lia.
Qed.

Lemma sqrt_monotone : forall {E : Env} x y, is_nan x = false -> is_nan y = false ->
  sign_bit x = false -> sign_bit y = false -> fle x y = true ->
  exists a b, F32_sqrt x = Ok a /\ F32_sqrt y = Ok b /\ fin a /\ fin b /\ (0 < val a <= val b)%R.
Proof.
  intros E x y Nx Ny Sx Sy L. rewrite fle_bits in L by assumption. apply Z.leb_le in L.
  rewrite !sqrt_pos_bits by assumption.
  pose proof (nonneg_bits x Nx Sx) as Rx. pose proof (nonneg_bits y Ny Sy) as Ry.
  do 2 eexists. split; [reflexivity|]. split; [reflexivity|].
  set (a := (to_bits x + 0x3F800000) / 2). set (b := (to_bits y + 0x3F800000) / 2).
  assert (Ab : 0x1FC00000 <= a <= b) by (split; [apply Z.div_le_lower_bound|apply Z.div_le_mono]; lia).
  assert (Bb : b < 0x7F800000) by (apply Z.div_lt_upper_bound; lia).
  assert (FV : forall c, 0 <= c < 0x7F800000 -> fin (from_bits c) /\ val (from_bits c) = bval c).
  { intros c Hc. apply val_from_bits; [lia|].
    pose proof (bits_split c ltac:(lia)) as [T _]. pose proof (bman_range c).
    pose proof (bexp_range c). pose proof (bsign_range c ltac:(lia)). lia. }
  destruct (FV a ltac:(lia)) as [F1 V1]. destruct (FV b ltac:(lia)) as [F2 V2].
  split; [assumption|]. split; [assumption|]. rewrite V1, V2.
  split; [|apply bval_mono; lia].
  apply Rlt_le_trans with (bval 0x1FC00000); [|apply bval_mono; lia].
  rewrite (bval_pos _ 63 0x400000); try reflexivity; [|lia].
  apply Rmult_lt_0_compat; [apply IZR_lt; lia|apply bpow_gt_0].
Qed.

Lemma sqrt_neg_nan : forall {E : Env} x, nan x \/ flt x F32_ZERO = true ->
  exists z, F32_sqrt x = Ok z /\ nan z.
Proof.
  intros E x H. unfold F32_sqrt.
  assert (G : fge x F32_ZERO = false).
  { unfold fge. destruct H as [H|H].
    - unfold fle. rewrite cmp_nan_r by assumption. reflexivity.
    - unfold fle, flt in *. rewrite (Bcompare_swap 24 128) .
      destruct (Bcompare 24 128 x F32_ZERO) as [[]|]; try discriminate; reflexivity. }
  rewrite G. eexists. split; [reflexivity|]. exact (proj2_sig nan_const).
Qed.

Lemma sqrt_total : forall {E : Env} x, exists z, F32_sqrt x = Ok z.
Proof.
  intros E x. destruct (is_nan x) eqn:N.
  - destruct (sqrt_neg_nan x (or_introl N)) as (z & A & _). exists z. assumption.
  - destruct (sign_bit x) eqn:S; [|rewrite sqrt_pos_bits by assumption; eexists; reflexivity].
    unfold F32_sqrt. destruct (fge x F32_ZERO) eqn:G; [|eexists; reflexivity].
    destruct (is_finite x) eqn:F.
    + rewrite fge_zero in G by assumption.
      assert (val x = 0%R).
      { pose proof (sign_val_neg x S). destruct (Rle_bool_spec 0 (val x)); [lra|discriminate]. }
      destruct x as [s|s|s pl Hp|s m e Hb]; try discriminate.
      * unfold sign_bit in S; simpl in S; subst s.
        change (to_bits (B754_zero true)) with 0x80000000.
        rewrite arith_ok by (change (ity_min u32) with 0; change (ity_max u32) with 4294967295; lia).
        eexists. reflexivity.
      * exfalso. rewrite val_finite in H.
        assert (0 < IZR (Zpos m) * bpow radix2 e)%R
          by (apply Rmult_lt_0_compat; [apply IZR_lt; lia|apply bpow_gt_0]).
        destruct s; lra.
    + destruct x as [s|s|s pl Hp|s m e Hb]; try discriminate.
      unfold sign_bit in S; simpl in S; subst s. discriminate G.
Qed.
