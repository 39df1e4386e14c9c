(** * Proofs: invsqrt, inv *)

From Coq Require Import ZArith Reals Bool List Lia Lra Psatz.
From Flocq Require Import Core IEEE754.BinarySingleNaN IEEE754.Binary IEEE754.Bits.
From Verif Require Import Base Spec Float F32Lemmas BitLemmas P_Trunc P_Floor Literals P_RoundEdge P_Euclid P_Roots.
Open Scope Z_scope.

Lemma u32_range : ity_min u32 = 0 /\ ity_max u32 = 4294967295.
Proof. split; reflexivity. Qed.

(** ** invsqrt *)

Lemma invsqrt_panic : forall {E : Env} x,
  (F32_invsqrt x = Panic <-> overflow_checks = true /\ 0x5F375A86 < to_bits x / 2) /\
  (overflow_checks = false -> exists z, F32_invsqrt x = Ok z).
Proof.
  intros E x. unfold F32_invsqrt, arith, in_range.
  rewrite Z.shiftr_div_pow2 by lia. change (2 ^ 1) with 2.
  destruct u32_range as [U1 U2]. rewrite U1, U2.
  pose proof (to_bits_range x).
  assert (0 <= to_bits x / 2) by (apply Z.div_pos; lia).
  set (h := to_bits x / 2) in *.
  replace (0x5F375A86 - h <=? 4294967295) with true by (symmetry; apply Z.leb_le; lia).
  rewrite andb_true_r. destruct (Z.leb_spec 0 (0x5F375A86 - h)) as [L|L].
  - unfold bind. split.
    + split; [discriminate|]. intros [_ C]. lia.
    + intros _. eexists. reflexivity.
  - destruct overflow_checks; unfold bind.
    + split; [|discriminate]. split; [intros _; split; [reflexivity|lia]|reflexivity].
    + split.
      * split; [discriminate|]. intros [C _]. discriminate C.
      * intros _. eexists. reflexivity.
Qed.

Lemma invsqrt_bits : forall {E : Env} x, to_bits x / 2 <= 0x5F375A86 ->
  F32_invsqrt x = Ok (from_bits (0x5F375A86 - to_bits x / 2)).
Proof.
  intros E x H. unfold F32_invsqrt. rewrite Z.shiftr_div_pow2 by lia. change (2 ^ 1) with 2.
  pose proof (to_bits_range x). assert (0 <= to_bits x / 2) by (apply Z.div_pos; lia).
  destruct u32_range as [U1 U2].
  rewrite arith_ok by lia. reflexivity.
Qed.

(** Three pieces of the piecewise linear approximation; bounds are on
    x * invsqrt(x)^2. *)
Definition inv_lo : R := (0.9653 * 0.9653)%R.
Definition inv_hi : R := (1.0344 * 1.0344)%R.

Lemma piece_even : forall m d, (0 <= m < 1)%R -> (0 <= d <= / IZR (2 ^ 24))%R ->
  let y := ((1 + (7821958 / 8388608 - (m / 2 - d))) / 2)%R in
  (0 < y)%R /\ (inv_lo <= (1 + m) * (y * y) <= inv_hi)%R.
Proof.
  intros m d Hm Hd y. change (IZR (2 ^ 24)) with 16777216%R in Hd. unfold inv_lo, inv_hi.
  set (A := (1 + 7821958 / 8388608)%R).
  assert (Ab : (1.93244 <= A <= 1.932459)%R) by (unfold A; lra).
  assert (Hy : y = ((A - m / 2 + d) / 2)%R) by (unfold y, A; field).
  rewrite Hy. clearbody A. clear y Hy.
  assert (Y1 : (1.93244 - m / 2 <= A - m / 2 + d <= 1.93246 - m / 2)%R) by lra.
  set (w := (A - m / 2 + d)%R) in *. clearbody w.
  split; [lra|].
  assert (W2 : ((1.93244 - m / 2) * (1.93244 - m / 2) <= w * w <= (1.93246 - m / 2) * (1.93246 - m / 2))%R) by (split; nra).
  split.
  - apply Rle_trans with ((1 + m) * ((1.93244 - m / 2) * (1.93244 - m / 2) / 4))%R; [|nra].
    assert (0 <= m * (1 - m))%R by nra. nra.
  - apply Rle_trans with ((1 + m) * ((1.93246 - m / 2) * (1.93246 - m / 2) / 4))%R; [nra|].
    assert (S0 : (0 <= (m - 0.62164) * (m - 0.62164))%R) by (apply Rle_0_sqr).
    assert (S1 : (0 <= (m - 0.62164) * (m - 0.62164) * (1 - m))%R) by (apply Rmult_le_pos; [exact S0|lra]). nra.
Qed.

Lemma piece_odd1 : forall m d, (0 <= m < 1)%R -> (0 <= d <= / IZR (2 ^ 24))%R ->
  (0 <= 3627654 / 8388608 - (m / 2 - d))%R ->
  let y := ((1 + (3627654 / 8388608 - (m / 2 - d))) / 2)%R in
  (0 < y)%R /\ (inv_lo <= (2 * (1 + m)) * (y * y) <= inv_hi)%R.
Proof.
  intros m d Hm Hd Hp y. change (IZR (2 ^ 24)) with 16777216%R in Hd. unfold inv_lo, inv_hi.
  set (A := (1 + 3627654 / 8388608)%R) in *.
  assert (Ab : (1.432449 <= A <= 1.4324503)%R) by (unfold A; lra).
  assert (Hy : y = ((A - m / 2 + d) / 2)%R) by (unfold y, A; field).
  assert (Hm2 : (m <= 0.86491)%R) by lra.
  rewrite Hy. clearbody A. clear y Hy Hp.
  assert (Y1 : (1.432449 - m / 2 <= A - m / 2 + d <= 1.4324505 - m / 2)%R) by lra.
  set (w := (A - m / 2 + d)%R) in *. clearbody w.
  split; [lra|].
  assert (W2 : ((1.432449 - m / 2) * (1.432449 - m / 2) <= w * w <= (1.4324505 - m / 2) * (1.4324505 - m / 2))%R) by (split; nra).
  split.
  - apply Rle_trans with ((1 + m) * ((1.432449 - m / 2) * (1.432449 - m / 2) / 2))%R; [|nra].
    assert (0 <= m * (0.86491 - m))%R by nra.
    assert (0 <= m * (0.86491 - m) * (4 - m))%R by (apply Rmult_le_pos; lra). nra.
  - apply Rle_trans with ((1 + m) * ((1.4324505 - m / 2) * (1.4324505 - m / 2) / 2))%R; [nra|].
    assert (S0 : (0 <= (m - 0.2883) * (m - 0.2883))%R) by (apply Rle_0_sqr).
    assert (S1 : (0 <= (m - 0.2883) * (m - 0.2883) * (1 - m))%R) by (apply Rmult_le_pos; [exact S0|lra]). nra.
Qed.

Lemma piece_odd2 : forall m d, (0 <= m < 1)%R -> (0 <= d <= / IZR (2 ^ 24))%R ->
  (3627654 / 8388608 - (m / 2 - d) < 0)%R ->
  let y := ((2 + (3627654 / 8388608 - (m / 2 - d))) / 4)%R in
  (0 < y)%R /\ (inv_lo <= (2 * (1 + m)) * (y * y) <= inv_hi)%R.
Proof.
  intros m d Hm Hd Hp y. change (IZR (2 ^ 24)) with 16777216%R in Hd. unfold inv_lo, inv_hi.
  assert (Hm2 : (0.8648 <= m)%R) by lra.
  assert (Hy : (0.483 <= y <= 0.50001)%R) by (unfold y; lra).
  split; [lra|].
  assert (Y1 : ((2.4324 - m / 2) / 4 <= y <= (2.43246 - m / 2) / 4)%R) by (unfold y; lra).
  clearbody y.
  assert (W2 : ((2.4324 - m / 2) / 4 * ((2.4324 - m / 2) / 4) <= y * y <= (2.43246 - m / 2) / 4 * ((2.43246 - m / 2) / 4))%R)
    by (split; nra).
  split.
  - apply Rle_trans with (2 * (1 + m) * ((2.4324 - m / 2) / 4 * ((2.4324 - m / 2) / 4)))%R; [|nra].
    assert (S0 : (0 <= (m - 0.8648) * (1 - m))%R) by (apply Rmult_le_pos; lra).
    assert (S1 : (0 <= (m - 0.8648) * (1 - m) * (1 - m))%R) by (apply Rmult_le_pos; [exact S0|lra]). nra.
  - apply Rle_trans with (2 * 2 * (0.50001 * 0.50001))%R; [|lra].
    apply Rmult_le_compat; nra.
Qed.

Lemma invsqrt_square_bounds : forall {E : Env} x, normal_pos x ->
  exists z, F32_invsqrt x = Ok z /\ normal_pos z /\
    (inv_lo <= val x * (val z * val z) <= inv_hi)%R.
Proof.
  intros E x Hx. pose proof (normal_split x Hx) as N. cbv zeta in N.
  set (Ex := bexp (to_bits x)) in *. set (M := bman (to_bits x)) in *.
  destruct N as (HE & HM & HT & HS & HV).
  assert (HB : to_bits x / 2 <= 0x5F375A86).
  { pose proof (nonneg_bits x (fin_not_nan x (proj1 Hx)) HS).
    apply Z.div_le_upper_bound; lia. }
  rewrite invsqrt_bits by assumption. eexists. split; [reflexivity|]. rewrite HT.
  pose proof (frac01 M HM) as HF. set (m := (IZR M / IZR (2 ^ 23))%R) in *.
  destruct (half_floor M) as (d & Hd & HH). fold m in HH.
  assert (HM2 : 0 <= M / 2 < 2 ^ 22) by (split; [apply Z.div_pos|apply Z.div_lt_upper_bound]; lia).
  assert (HR : forall K, (IZR (K - M / 2) / IZR (2 ^ 23) = IZR K / IZR (2 ^ 23) - (m / 2 - d))%R).
  { intros K. rewrite minus_IZR. unfold Rdiv at 1. rewrite Rmult_minus_distr_r.
    fold (IZR K / IZR (2 ^ 23))%R. fold (IZR (M / 2) / IZR (2 ^ 23))%R. rewrite HH. reflexivity. }
  assert (I23 : IZR (2 ^ 23) = 8388608%R) by reflexivity.
  (* assembling the result *)
  assert (K : forall z p q y s, fin z -> (bpow radix2 (-126) <= val z)%R ->
    val x = (s * bpow radix2 p)%R -> val z = (y * bpow radix2 q)%R -> p + (q + q) = 0 ->
    (inv_lo <= s * (y * y) <= inv_hi)%R ->
    normal_pos z /\ (inv_lo <= val x * (val z * val z) <= inv_hi)%R).
  { intros z p q y s Fz Lz Vx Vz Pq B. split; [split; assumption|].
    replace (val x * (val z * val z))%R with (s * (y * y))%R; [assumption|].
    rewrite Vx, Vz.
    replace (s * bpow radix2 p * (y * bpow radix2 q * (y * bpow radix2 q)))%R
      with (s * (y * y) * (bpow radix2 p * (bpow radix2 q * bpow radix2 q)))%R by ring.
    rewrite <- !bpow_plus, Pq. simpl bpow. ring. }
  destruct (Z.Even_or_Odd (Ex - 127)) as [[h Hh]|[h Hh]].
  - assert (B : 0x5F375A86 - (Ex * 2 ^ 23 + M) / 2 = (126 - h) * 2 ^ 23 + (7821958 - M / 2)).
    { replace (Ex * 2 ^ 23 + M) with (M + (h * 2 ^ 23 + 127 * 2 ^ 22) * 2) by lia.
      rewrite Z.div_add by lia. lia. }
    rewrite B. destruct (mk_val (126 - h) (7821958 - M / 2) ltac:(lia) ltac:(lia)) as (F & S & _ & V).
    rewrite HR, I23 in V.
    destruct (piece_even m d HF Hd) as [Y0 Y1].
    apply (K _ (2 * h) (- h) ((1 + (7821958 / 8388608 - (m / 2 - d))) / 2)%R (1 + m)%R F).
    + rewrite V. apply Rle_trans with (1 * bpow radix2 (126 - h - 127))%R.
      * rewrite Rmult_1_l. apply bpow_le. lia.
      * apply Rmult_le_compat_r; [apply bpow_ge_0|].
        change (IZR (2 ^ 24)) with 16777216%R in Hd. lra.
    + rewrite HV, Hh. reflexivity.
    + rewrite V. replace (126 - h - 127) with (-1 + - h) by ring. rewrite bpow_plus.
      change (bpow radix2 (-1)) with (/ 2)%R. field.
    + ring.
    + exact Y1.
  - destruct (Z.lt_ge_cases 3627654 (M / 2)) as [L|L].
    + assert (B : 0x5F375A86 - (Ex * 2 ^ 23 + M) / 2 = (125 - h) * 2 ^ 23 + (2 ^ 23 + 3627654 - M / 2)).
      { replace (Ex * 2 ^ 23 + M) with (M + (h * 2 ^ 23 + 2 ^ 29) * 2) by lia.
        rewrite Z.div_add by lia. lia. }
      rewrite B. destruct (mk_val (125 - h) (2 ^ 23 + 3627654 - M / 2) ltac:(lia) ltac:(lia)) as (F & S & _ & V).
      rewrite HR, I23 in V.
      assert (P : (3627654 / 8388608 - (m / 2 - d) < 0)%R).
      { specialize (HR 3627654). rewrite I23 in HR. rewrite <- HR.
        assert (IZR (3627654 - M / 2) <= -1)%R by (apply IZR_le; lia). lra. }
      destruct (piece_odd2 m d HF Hd P) as [Y0 Y1].
      assert (V' : val (from_bits ((125 - h) * 2 ^ 23 + (2 ^ 23 + 3627654 - M / 2))) =
        ((2 + (3627654 / 8388608 - (m / 2 - d))) / 4 * bpow radix2 (- h))%R).
      { rewrite V. change (2 ^ 23 + 3627654) with 12016262. replace (125 - h - 127) with (-2 + - h) by ring.
        rewrite bpow_plus. change (bpow radix2 (-2)) with (/ 4)%R. field. }
      apply (K _ (2 * h) (- h) ((2 + (3627654 / 8388608 - (m / 2 - d))) / 4)%R (2 * (1 + m))%R F).
      * rewrite V. apply Rle_trans with (1 * bpow radix2 (125 - h - 127))%R.
        -- rewrite Rmult_1_l. apply bpow_le. lia.
        -- apply Rmult_le_compat_r; [apply bpow_ge_0|]. change (2 ^ 23 + 3627654) with 12016262.
           change (IZR (2 ^ 24)) with 16777216%R in Hd. lra.
      * rewrite HV, Hh. rewrite (Z.add_comm (2 * h)), bpow_plus. change (bpow radix2 1) with 2%R. ring.
      * exact V'.
      * ring.
      * exact Y1.
    + assert (B : 0x5F375A86 - (Ex * 2 ^ 23 + M) / 2 = (126 - h) * 2 ^ 23 + (3627654 - M / 2)).
      { replace (Ex * 2 ^ 23 + M) with (M + (h * 2 ^ 23 + 2 ^ 29) * 2) by lia.
        rewrite Z.div_add by lia. lia. }
      rewrite B. destruct (mk_val (126 - h) (3627654 - M / 2) ltac:(lia) ltac:(lia)) as (F & S & _ & V).
      rewrite HR, I23 in V.
      assert (P : (0 <= 3627654 / 8388608 - (m / 2 - d))%R).
      { specialize (HR 3627654). rewrite I23 in HR. rewrite <- HR.
        assert (0 <= IZR (3627654 - M / 2))%R by (apply IZR_le; lia). lra. }
      destruct (piece_odd1 m d HF Hd P) as [Y0 Y1].
      apply (K _ (2 * h) (- h) ((1 + (3627654 / 8388608 - (m / 2 - d))) / 2)%R (2 * (1 + m))%R F).
      * rewrite V. apply Rle_trans with (1 * bpow radix2 (126 - h - 127))%R.
        -- rewrite Rmult_1_l. apply bpow_le. lia.
        -- apply Rmult_le_compat_r; [apply bpow_ge_0|]. lra.
      * rewrite HV, Hh. rewrite (Z.add_comm (2 * h)), bpow_plus. change (bpow radix2 1) with 2%R. ring.
      * rewrite V. replace (126 - h - 127) with (-1 + - h) by ring. rewrite bpow_plus.
        change (bpow radix2 (-1)) with (/ 2)%R. field.
      * ring.
      * exact Y1.
Qed.

Lemma invsqrt_accuracy : forall {E : Env} x, normal_pos x ->
  exists z, F32_invsqrt x = Ok z /\ normal_pos z /\
    (Rabs (val z * sqrt (val x) - 1) <= 0.0347)%R.
Proof.
  intros E x Hx. destruct (invsqrt_square_bounds x Hx) as (z & A & B & C).
  exists z. split; [assumption|]. split; [assumption|].
  pose proof (normal_pos_gt0 x Hx) as Px. pose proof (normal_pos_gt0 z B) as Pz.
  pose proof (sqrt_pos (val x)) as S. pose proof (sqrt_sqrt (val x) ltac:(lra)) as SS.
  set (s := sqrt (val x)) in *. set (w := (val z * s)%R).
  assert (W : (w * w = val x * (val z * val z))%R) by (unfold w; rewrite <- SS; ring).
  rewrite <- W in C. unfold inv_lo, inv_hi in C.
  assert (0 <= w)%R by (unfold w; apply Rmult_le_pos; lra).
  apply Rabs_le. split; nra.
Qed.

Lemma invsqrt_antitone : forall {E : Env} x y, is_nan x = false -> is_nan y = false ->
  sign_bit x = false -> sign_bit y = false -> fle x y = true ->
  exists a b, F32_invsqrt x = Ok a /\ F32_invsqrt y = Ok b /\ fin a /\ fin b /\ (0 < val b <= val a)%R.
Proof.
  intros E x y Nx Ny Sx Sy L. rewrite fle_bits in L by assumption. apply Z.leb_le in L.
  pose proof (nonneg_bits x Nx Sx) as Rx. pose proof (nonneg_bits y Ny Sy) as Ry.
  assert (Hx : 0 <= to_bits x / 2 <= 0x3FC00000) by (split; [apply Z.div_pos|apply Z.div_le_upper_bound]; lia).
  assert (Hy : 0 <= to_bits y / 2 <= 0x3FC00000) by (split; [apply Z.div_pos|apply Z.div_le_upper_bound]; lia).
  assert (Hxy : to_bits x / 2 <= to_bits y / 2) by (apply Z.div_le_mono; lia).
  rewrite !invsqrt_bits by lia. do 2 eexists. split; [reflexivity|]. split; [reflexivity|].
  set (a := 0x5F375A86 - to_bits x / 2). set (b := 0x5F375A86 - to_bits y / 2).
  assert (FV : forall c, 0 <= c < 0x7F800000 -> fin (from_bits c) /\ val (from_bits c) = bval c).
  { intros c Hc. apply val_from_bits; [lia|].
    pose proof (bits_split c ltac:(lia)) as [T _]. pose proof (bman_range c).
    pose proof (bexp_range c). pose proof (bsign_range c ltac:(lia)). lia. }
  destruct (FV a ltac:(lia)) as [F1 V1]. destruct (FV b ltac:(lia)) as [F2 V2].
  split; [assumption|]. split; [assumption|]. rewrite V1, V2.
  split; [|apply bval_mono; lia].
  apply Rlt_le_trans with (bval 0x1F775A86); [|apply bval_mono; lia].
  rewrite (bval_pos _ 62 0x775A86); try reflexivity; [|lia].
  apply Rmult_lt_0_compat; [apply IZR_lt; lia|apply bpow_gt_0].
Qed.

(** ** inv *)

Lemma inv_bits : forall {E : Env} x, to_bits x <= 0x7F000000 ->
  F32_inv x = from_bits (0x7F000000 - to_bits x).
Proof.
  intros E x H. unfold F32_inv. cbv zeta.
  replace (0 <=? 0x7F000000 - to_bits x) with true by (symmetry; apply Z.leb_le; lia). reflexivity.
Qed.

Lemma inv_accuracy : forall {E : Env} x, normal_pos x -> (val x <= bpow radix2 126)%R ->
  normal_pos (F32_inv x) /\ (1 <= val x * val (F32_inv x) <= 9 / 8)%R.
Proof.
  intros E x Hx Hu. pose proof (normal_split x Hx) as N. cbv zeta in N.
  set (Ex := bexp (to_bits x)) in *. set (M := bman (to_bits x)) in *.
  destruct N as (HE & HM & HT & HS & HV).
  pose proof (frac01 M HM) as HF.
  assert (HB : Ex <= 252 \/ (Ex = 253 /\ M = 0)).
  { destruct (Z.le_gt_cases Ex 252) as [L|L]; [left; assumption|right].
    destruct (Z.eq_dec Ex 253) as [X|X].
    - split; [assumption|]. rewrite HV, X in Hu. change (253 - 127) with 126 in Hu.
      pose proof (bpow_gt_0 radix2 126).
      assert (IZR M / IZR (2 ^ 23) <= 0)%R by nra.
      assert (IZR M = 0)%R.
      { assert (0 < / IZR (2 ^ 23))%R by (apply Rinv_0_lt_compat, IZR_lt; lia). unfold Rdiv in *.
        assert (0 <= IZR M)%R by (apply IZR_le; lia). nra. }
      apply eq_IZR. assumption.
    - exfalso. rewrite HV in Hu.
      assert (bpow radix2 126 < bpow radix2 (Ex - 127))%R by (apply bpow_lt; lia).
      pose proof (bpow_gt_0 radix2 (Ex - 127)). nra. }
  rewrite inv_bits by lia. rewrite HT.
  set (m := (IZR M / IZR (2 ^ 23))%R) in *.
  destruct (Z.eq_dec M 0) as [Z0|Z0].
  - assert (m0 : m = 0%R) by (unfold m, Rdiv; rewrite Z0; ring).
    rewrite Z0. rewrite m0 in *. replace (0x7F000000 - (Ex * 2 ^ 23 + 0)) with ((254 - Ex) * 2 ^ 23 + 0) by lia.
    destruct (mk_val (254 - Ex) 0 ltac:(lia) ltac:(lia)) as (F & S & _ & V).
    replace (1 + 0 / IZR (2 ^ 23))%R with 1%R in V by (unfold Rdiv; ring). rewrite Rmult_1_l in V.
    replace (254 - Ex - 127) with (- (Ex - 127)) in V by ring.
    split.
    + split; [assumption|]. rewrite V. apply bpow_le. lia.
    + rewrite V, HV, Rplus_0_r, Rmult_1_l, <- bpow_plus, Z.add_opp_diag_r. simpl. lra.
  - replace (0x7F000000 - (Ex * 2 ^ 23 + M)) with ((253 - Ex) * 2 ^ 23 + (2 ^ 23 - M)) by lia.
    destruct (mk_val (253 - Ex) (2 ^ 23 - M) ltac:(lia) ltac:(lia)) as (F & S & _ & V).
    assert (Y : (1 + IZR (2 ^ 23 - M) / IZR (2 ^ 23) = 2 - m)%R).
    { unfold m. rewrite minus_IZR. field. apply IZR_neq. lia. }
    rewrite Y in V.
    split.
    + split; [assumption|]. rewrite V. apply Rle_trans with (1 * bpow radix2 (253 - Ex - 127))%R.
      * rewrite Rmult_1_l. apply bpow_le. lia.
      * apply Rmult_le_compat_r; [apply bpow_ge_0|lra].
    + assert (P : (bpow radix2 (Ex - 127) * bpow radix2 (253 - Ex - 127) = / 2)%R).
      { rewrite <- bpow_plus. replace (Ex - 127 + (253 - Ex - 127)) with (-1) by ring. reflexivity. }
      rewrite V, HV.
      replace ((1 + m) * bpow radix2 (Ex - 127) * ((2 - m) * bpow radix2 (253 - Ex - 127)))%R
        with ((1 + m) * (2 - m) * (bpow radix2 (Ex - 127) * bpow radix2 (253 - Ex - 127)))%R by ring.
      rewrite P. pose proof (Rle_0_sqr (m - / 2)) as Q. unfold Rsqr in Q.
      assert (0 <= m * (1 - m))%R by (apply Rmult_le_pos; lra). split; lra.
Qed.

Lemma inv_involutive : forall {E : Env} x, is_nan x = false -> sign_bit x = false ->
  fle x (from_bits 0x7F000000) = true -> F32_inv (F32_inv x) = x.
Proof.
  intros E x Nx Sx L.
  destruct (pos_bits 0x7F000000 ltac:(lia)) as (Ny & Sy & Ty).
  rewrite fle_bits, Ty in L by assumption. apply Z.leb_le in L.
  pose proof (to_bits_range x).
  assert (T : to_bits (from_bits (0x7F000000 - to_bits x)) = 0x7F000000 - to_bits x)
    by (apply to_from_bits; lia).
  rewrite (inv_bits x) by assumption. rewrite inv_bits by (rewrite T; lia).
  rewrite T. replace (0x7F000000 - (0x7F000000 - to_bits x)) with (to_bits x) by ring.
  apply from_to_bits.
Qed.

Lemma inv_antitone : forall {E : Env} x y, is_nan x = false -> is_nan y = false ->
  sign_bit x = false -> sign_bit y = false -> fle x y = true ->
  fle (F32_inv y) (F32_inv x) = true.
Proof.
  intros E x y Nx Ny Sx Sy L. rewrite fle_bits in L by assumption. apply Z.leb_le in L.
  assert (Big : forall z, is_nan z = false -> sign_bit z = false -> 0x7F000000 < to_bits z ->
    F32_inv z = f32_zero false).
  { intros z Nz Sz G. unfold F32_inv. cbv zeta.
    replace (0 <=? 0x7F000000 - to_bits z) with false by (symmetry; apply Z.leb_gt; lia).
    rewrite Sz, Nz. destruct (is_infinite z); reflexivity. }
  assert (B : forall z, is_nan z = false -> sign_bit z = false ->
    is_nan (F32_inv z) = false /\ sign_bit (F32_inv z) = false /\
    to_bits (F32_inv z) = Z.max 0 (0x7F000000 - to_bits z)).
  { intros z Nz Sz. pose proof (to_bits_range z). destruct (Z.le_gt_cases (to_bits z) 0x7F000000) as [G|G].
    - rewrite inv_bits by assumption. rewrite Z.max_r by lia. apply pos_bits. lia.
    - rewrite Big by assumption. rewrite Z.max_l by lia. repeat split. }
  destruct (B x Nx Sx) as (X1 & X2 & X3). destruct (B y Ny Sy) as (Y1 & Y2 & Y3).
  rewrite fle_bits by assumption. rewrite X3, Y3. apply Z.leb_le. lia.
Qed.

Lemma inv_edges : forall {E : Env} x,
  (fin x -> sign_bit x = true -> F32_inv x = f32_zero false) /\
  (fin x -> (bpow radix2 127 < val x)%R -> F32_inv x = f32_zero false) /\
  F32_inv (f32_inf false) = f32_zero false /\ F32_inv (f32_inf true) = f32_zero true /\
  (nan x -> nan (F32_inv x)).
Proof.
  intros E x.
  assert (Z0 : fin x -> 0x7F000000 < to_bits x -> F32_inv x = f32_zero false).
  { intros F G. unfold F32_inv. cbv zeta.
    replace (0 <=? 0x7F000000 - to_bits x) with false by (symmetry; apply Z.leb_gt; lia).
    rewrite (fin_not_nan x F). destruct x; try discriminate F; reflexivity. }
  split; [|split; [|split; [|split]]].
  - intros F S. apply Z0; trivial. rewrite sign_bit_ge in S. apply Z.leb_le in S. lia.
  - intros F G. apply Z0; trivial.
    pose proof (bpow_gt_0 radix2 127).
    assert (S : sign_bit x = false).
    { destruct (sign_bit x) eqn:S; trivial. pose proof (sign_val_neg x S). lra. }
    pose proof (pos_bits 0x7F000000 ltac:(lia)) as (Ny & Sy & Ty).
    pose proof (fle_bits x (from_bits 0x7F000000) (fin_not_nan x F) Ny S Sy) as L.
    rewrite Ty, fle_R in L by (trivial; reflexivity).
    rewrite Rle_bool_false in L.
    + symmetry in L. apply Z.leb_gt in L. assumption.
    + lit 0x7F000000. bpow_lit. apply Rle_lt_trans with (2 := G). bpow_lit. lra.
  - reflexivity.
  - reflexivity.
  - intros N. unfold F32_inv. cbv zeta.
    assert (G : 0x7F000000 < to_bits x).
    { unfold nan in N. rewrite nan_fields in N. apply andb_prop in N. destruct N as [N1 N2].
      apply Z.eqb_eq in N1. pose proof (bits_split _ (to_bits_range x)) as [T _].
      pose proof (bman_range (to_bits x)). pose proof (bsign_range _ (to_bits_range x)). lia. }
    replace (0 <=? 0x7F000000 - to_bits x) with false by (symmetry; apply Z.leb_gt; lia).
    unfold nan in N. rewrite N. destruct x; try discriminate N.
    exact (proj2_sig nan_const).
Qed.

(** ** The panic set of invsqrt, by value *)

Lemma invsqrt_panic_bits : forall {E : Env} x, overflow_checks = true ->
  (F32_invsqrt x = Panic <-> 0xBE6EB50D < to_bits x).
Proof.
  intros E x H. destruct (invsqrt_panic x) as [[P1 P2] _].
  pose proof (Z.div_mod (to_bits x) 2 ltac:(lia)). pose proof (Z.mod_pos_bound (to_bits x) 2 ltac:(lia)).
  split.
  - intros P. destruct (P1 P). lia.
  - intros G. apply P2. split; [assumption|lia].
Qed.

Lemma fneg_bits : forall x,
  to_bits (fneg x) = if sign_bit x then to_bits x - 2 ^ 31 else to_bits x + 2 ^ 31.
Proof.
  assert (J : forall (s : bool) m e, join_bits 23 8 (negb s) m e =
    if s then join_bits 23 8 s m e - 2 ^ 31 else join_bits 23 8 s m e + 2 ^ 31).
  { intros s m e. unfold join_bits. destruct s; rewrite !Z.shiftl_mul_pow2 by lia; unfold negb; lia. }
  intros x. unfold to_bits, bits_of_b32, bits_of_binary_float, fneg, sign_bit, Bsign.
  destruct x as [s|s|s pl H|s m e H]; try apply J.
  destruct (0 <=? Z.pos m - 2 ^ 23); apply J.
Qed.

(** The threshold is -0.23311… *)
Lemma invsqrt_panic_value : forall {E : Env} x, overflow_checks = true -> fin x ->
  (F32_invsqrt x = Panic <-> (val x < val (from_bits 0xBE6EB50D))%R).
Proof.
  intros E x H F. rewrite invsqrt_panic_bits by assumption.
  assert (T : val (from_bits 0xBE6EB50D) = (- val (from_bits 0x3E6EB50D))%R).
  { lit 0xBE6EB50D. lit 0x3E6EB50D. bpow_lit. lra. }
  destruct (sign_bit x) eqn:S.
  - assert (N1 : sign_bit (fneg x) = false) by (rewrite fneg_sign, S; reflexivity).
    assert (N2 : is_nan (fneg x) = false) by (rewrite fneg_is_nan; apply fin_not_nan, F).
    destruct (pos_bits 0x3E6EB50D ltac:(lia)) as (B1 & B2 & B3).
    pose proof (fle_bits (fneg x) (from_bits 0x3E6EB50D) N2 B1 N1 B2) as L.
    rewrite B3, fle_R in L by (try reflexivity; apply fneg_fin; assumption).
    rewrite fneg_val in L.
    assert (Q : to_bits x = to_bits (fneg x) + 2 ^ 31).
    { pose proof (fneg_bits x) as Q. rewrite S in Q. lia. }
    rewrite T. split.
    + intros G. destruct (Rle_bool_spec (- val x) (val (from_bits 0x3E6EB50D))) as [A|A]; [|lra].
      symmetry in L. apply Z.leb_le in L. lia.
    + intros G. rewrite Rle_bool_false in L by lra. symmetry in L. apply Z.leb_gt in L. lia.
  - pose proof (nonneg_bits x (fin_not_nan x F) S). split; [lia|].
    intros G. pose proof (sign_val_pos x S). exfalso.
    assert (0 < val (from_bits 0x3E6EB50D))%R by (lit 0x3E6EB50D; bpow_lit; lra). lra.
Qed.

(** ** Edge values of sqrt *)

Lemma sqrt_edges : forall {E : Env},
  F32_sqrt (f32_zero false) = Ok (from_bits 0x1FC00000) /\
  F32_sqrt (f32_zero true) = Ok (from_bits 0x5FC00000) /\
  F32_sqrt (f32_inf false) = Ok (from_bits 0x5F800000) /\
  val (from_bits 0x1FC00000) = (3 / 2 * bpow radix2 (-64))%R /\
  val (from_bits 0x5FC00000) = (3 / 2 * bpow radix2 64)%R /\
  val (from_bits 0x5F800000) = bpow radix2 64.
Proof.
  assert (A : forall {E : Env} z b, in_range u32 (to_bits z + 0x3F800000) = true -> fge z F32_ZERO = true ->
    Z.shiftr (to_bits z + 0x3F800000) 1 = b -> F32_sqrt z = Ok (from_bits b)).
  { intros E z b H1 H2 H3. unfold F32_sqrt. rewrite H2. unfold arith. rewrite H1. unfold bind. rewrite H3. reflexivity. }
  intros E. split; [apply A; vm_compute; reflexivity|]. split; [apply A; vm_compute; reflexivity|].
  split; [apply A; vm_compute; reflexivity|].
  split; [lit 0x1FC00000|split; [lit 0x5FC00000|lit 0x5F800000]]; bpow_lit; field.
Qed.
