(** * Proofs: floor, ceil, round *)

From Coq Require Import ZArith Reals Bool List Lia Lra.
From Flocq Require Import Core IEEE754.BinarySingleNaN IEEE754.Binary IEEE754.Bits.
From Verif Require Import Base Spec Float F32Lemmas BitLemmas P_Trunc.
Open Scope Z_scope.

Lemma fmt_scaled : forall m e, Z.abs m <= 2 ^ 24 -> -149 <= e -> fmt (IZR m * bpow radix2 e)%R.
Proof.
  intros m e Hm He.
  destruct (Z.eq_dec (Z.abs m) (2 ^ 24)) as [A|A].
  - assert (B : fmt (bpow radix2 (24 + e))) by (apply fmt_bpow; lia).
    rewrite bpow_plus in B. change (bpow radix2 24) with (IZR (2 ^ 24)) in B.
    destruct (Z.abs_spec m) as [[_ S]|[_ S]].
    + replace m with (2 ^ 24) by lia. assumption.
    + replace m with (- 2 ^ 24) by lia. rewrite opp_IZR, Ropp_mult_distr_l_reverse.
      apply fmt_opp. assumption.
  - apply generic_format_FLT. apply FLT_spec with (Float radix2 m e); trivial.
    simpl. change (Z.pow_pos 2 24) with (2 ^ 24). lia.
Qed.

(** Rounding at a known exponent. *)
Lemma rnd_scaled : forall r j, -149 <= j ->
  (bpow radix2 (j + 23) <= Rabs r < bpow radix2 (j + 24))%R ->
  rnd r = (IZR (ZnearestE (r * bpow radix2 (- j))) * bpow radix2 j)%R.
Proof.
  intros r j Hj H.
  assert (C : cexp radix2 (FLT_exp (-149) 24) r = j).
  { unfold cexp. rewrite (mag_unique radix2 r (j + 24)).
    - unfold FLT_exp. lia.
    - replace (j + 24 - 1) with (j + 23) by ring. assumption. }
  unfold rnd, round, scaled_mantissa, F2R. rewrite C. reflexivity.
Qed.

Lemma clamp_id : forall z, - 2 ^ 31 <= z < 2 ^ 31 -> clamp i32 z = z.
Proof.
  intros z H. unfold clamp. change (ity_min i32) with (- 2 ^ 31).
  change (ity_max i32) with (2 ^ 31 - 1). lia.
Qed.

Lemma f32_max_i32 : fin (f32_of_Z (2 ^ 31 - 1)) /\ val (f32_of_Z (2 ^ 31 - 1)) = IZR (2 ^ 31).
Proof.
  split; [reflexivity|]. rewrite val_bits by reflexivity.
  replace (to_bits (f32_of_Z (2 ^ 31 - 1))) with 0x4F000000 by (vm_compute; reflexivity).
  rewrite (bval_pos _ 158 0); try reflexivity; [|lia].
  change (158 - 150) with 8. rewrite bpow_Z by lia. rewrite <- mult_IZR. reflexivity.
Qed.

Lemma f32_min_i32 : fin (f32_of_Z (- 2 ^ 31)) /\ val (f32_of_Z (- 2 ^ 31)) = IZR (- 2 ^ 31).
Proof.
  destruct (f32_of_Z_R (- 2 ^ 31)) as [A B].
  - change (Z.abs (- 2 ^ 31)) with (2 ^ 31). apply Z.pow_le_mono_r; lia.
  - split; [assumption|]. rewrite B. apply rnd_fmt.
    rewrite opp_IZR. apply fmt_opp. change (IZR (2 ^ 31)) with (bpow radix2 31).
    apply fmt_bpow. lia.
Qed.

Lemma one_val : fin F32_ONE /\ val F32_ONE = 1%R.
Proof.
  split; [reflexivity|]. rewrite val_bits by reflexivity.
  unfold F32_ONE. rewrite to_from_bits by lia.
  rewrite (bval_pos _ 127 0); try reflexivity; [|lia].
  change (127 - 150) with (-23). change (2 ^ 23 + 0) with (2 ^ 23).
  rewrite <- bpow_Z, <- bpow_plus by lia. reflexivity.
Qed.

(** The value of [x as i32 as f32] on the i32 range. *)
Lemma to_from_i32 : forall x, fin x -> (Rabs (val x) <= bpow radix2 31)%R ->
  let y := f32_of_Z (to_i32 x) in fin y /\ val y = IZR (Ztrunc (val x)).
Proof.
  intros x Hx Hb y. unfold y. rewrite to_i32_fin by assumption.
  destruct (Rlt_or_le (Rabs (val x)) (bpow radix2 24)) as [L|L].
  - assert (T : Z.abs (Ztrunc (val x)) <= 2 ^ 24).
    { rewrite <- Ztrunc_abs. rewrite Ztrunc_floor by apply Rabs_pos.
      apply le_IZR. apply Rle_trans with (1 := Zfloor_lb _). change (IZR (2 ^ 24)) with (bpow radix2 24). lra. }
    assert (2 ^ 24 < 2 ^ 31) by reflexivity.
    rewrite clamp_id by lia. apply f32_of_Z_exact. assumption.
  - destruct (large_integer x Hx) as [n Hn].
    { apply Rle_trans with (2 := L). apply bpow_le. lia. }
    rewrite Hn, Ztrunc_IZR. rewrite Hn in Hb. rewrite <- abs_IZR in Hb.
    change (bpow radix2 31) with (IZR (2 ^ 31)) in Hb. apply le_IZR in Hb.
    destruct (Z.eq_dec n (2 ^ 31)) as [E|E].
    + subst n. apply f32_max_i32.
    + rewrite clamp_id by lia.
      destruct (f32_of_Z_R n) as [A B].
      { apply Z.le_trans with (1 := Hb). apply Z.pow_le_mono_r; lia. }
      split; [assumption|]. rewrite B, <- Hn. apply rnd_fmt, fmt_val.
Qed.

Lemma floor_exact : forall {E : Env} x, fin x -> (Rabs (val x) <= bpow radix2 31)%R ->
  fin (F32_floor x) /\ val (F32_floor x) = IZR (Zfloor (val x)).
Proof.
  intros E x Hx Hb. unfold F32_floor. cbv zeta.
  destruct (to_from_i32 x Hx Hb) as [A B]. set (y := f32_of_Z (to_i32 x)) in *.
  rewrite flt_R by assumption. destruct (Rlt_bool_spec (val x) (val y)) as [L|L].
  - assert (N : (val x < 0)%R).
    { apply Rnot_le_lt. intros P. rewrite B, Ztrunc_floor in L by assumption.
      pose proof (Zfloor_lb (val x)). lra. }
    rewrite Ztrunc_ceil in B by lra. rewrite B in L.
    assert (C : Zceil (val x) = Zfloor (val x) + 1).
    { apply Zceil_floor_neq. intros C. pose proof (Zceil_ub (val x)).
      pose proof (Zfloor_lb (val x)).
      assert (IZR (Zceil (val x)) <= val x)%R; [|lra].
      rewrite <- C, Zceil_IZR. lra. }
    assert (S : (Rabs (val x) < bpow radix2 23)%R).
    { apply Rnot_le_lt. intros P. destruct (large_integer x Hx P) as [n Hn].
      rewrite Hn, Zceil_IZR in L. lra. }
    assert (F : Z.abs (Zfloor (val x)) <= 2 ^ 24).
    { apply Rabs_lt_inv in S. change (bpow radix2 23) with (IZR (2 ^ 23)) in S.
      assert (- 2 ^ 23 <= Zfloor (val x)).
      { apply Zfloor_lub. rewrite opp_IZR. lra. }
      assert (Zfloor (val x) < 2 ^ 23).
      { apply lt_IZR. apply Rle_lt_trans with (1 := Zfloor_lb _). lra. }
      assert (2 ^ 23 < 2 ^ 24) by reflexivity. lia. }
    destruct one_val as [O1 O2].
    assert (D : (val y - val F32_ONE = IZR (Zfloor (val x)))%R).
    { rewrite B, O2, C, plus_IZR. ring. }
    assert (Rd : rnd (val y - val F32_ONE) = IZR (Zfloor (val x))).
    { rewrite D. apply rnd_fmt, fmt_IZR. assumption. }
    destruct (fsub_R y F32_ONE A O1) as [G1 G2].
    { rewrite Rd, <- abs_IZR. apply Rle_lt_trans with (bpow radix2 24).
      - change (bpow radix2 24) with (IZR (2 ^ 24)). apply IZR_le. assumption.
      - apply bpow_lt. lia. }
    split; [assumption|]. rewrite G2. assumption.
  - split; [assumption|]. rewrite B. rewrite B in L. f_equal.
    destruct (Rle_or_lt 0 (val x)) as [P|P].
    + apply Ztrunc_floor. assumption.
    + rewrite Ztrunc_ceil in L |- * by lra. symmetry. apply Zfloor_imp.
      split; [assumption|]. rewrite plus_IZR. pose proof (Zceil_ub (val x)). lra.
Qed.

Lemma ceil_exact : forall {E : Env} x, fin x -> (Rabs (val x) <= bpow radix2 31)%R ->
  fin (F32_ceil x) /\ val (F32_ceil x) = IZR (Zceil (val x)).
Proof.
  intros E x Hx Hb. unfold F32_ceil.
  destruct (floor_exact (fneg x)) as [A B].
  - apply fneg_fin. assumption.
  - rewrite fneg_val, Rabs_Ropp. assumption.
  - split; [apply fneg_fin; assumption|]. rewrite fneg_val, B, fneg_val.
    unfold Zceil. rewrite opp_IZR. reflexivity.
Qed.

(** Saturation. *)
Lemma to_i32_big : forall x, is_nan x = false ->
  (fin x -> (bpow radix2 31 <= Rabs (val x))%R) ->
  to_i32 x = if sign_bit x then - 2 ^ 31 else 2 ^ 31 - 1.
Proof.
  intros x Hn Hb. destruct (is_finite x) eqn:F.
  - specialize (Hb F). rewrite to_i32_fin by assumption.
    change (bpow radix2 31) with (IZR (2 ^ 31)) in Hb.
    unfold clamp. change (ity_min i32) with (- 2 ^ 31). change (ity_max i32) with (2 ^ 31 - 1).
    destruct (sign_bit x) eqn:S.
    + pose proof (sign_val_neg x S). rewrite Ztrunc_ceil by lra.
      rewrite Rabs_left1 in Hb by assumption.
      assert (Zceil (val x) <= - 2 ^ 31); [|lia]. apply Zceil_glb. rewrite opp_IZR. lra.
    + pose proof (sign_val_pos x S). rewrite Ztrunc_floor by lra.
      rewrite Rabs_pos_eq in Hb by assumption.
      assert (2 ^ 31 <= Zfloor (val x)); [|lia]. apply Zfloor_lub. lra.
  - destruct x; try discriminate. destruct s; reflexivity.
Qed.

Lemma flt_false_nan : forall x y, nan x -> flt x y = false.
Proof. intros x y H. unfold flt. rewrite cmp_nan_l by assumption. reflexivity. Qed.

Lemma floor_big : forall {E : Env} x, is_nan x = false ->
  (fin x -> (bpow radix2 31 <= Rabs (val x))%R) ->
  F32_floor x = from_bits (if sign_bit x then 0xCF000000 else 0x4F000000).
Proof.
  intros E x Hn Hb. unfold F32_floor. cbv zeta. rewrite to_i32_big by assumption.
  destruct (sign_bit x) eqn:S.
  - assert (P : fsub (f32_of_Z (- 2 ^ 31)) F32_ONE = from_bits 0xCF000000)
      by (apply to_bits_inj; vm_compute; reflexivity).
    assert (Q : f32_of_Z (- 2 ^ 31) = from_bits 0xCF000000)
      by (apply to_bits_inj; vm_compute; reflexivity).
    rewrite P, Q. destruct (flt _ _); reflexivity.
  - assert (Q : f32_of_Z (2 ^ 31 - 1) = from_bits 0x4F000000)
      by (apply to_bits_inj; vm_compute; reflexivity).
    assert (L : flt x (f32_of_Z (2 ^ 31 - 1)) = false).
    { destruct (is_finite x) eqn:F.
      - rewrite flt_R by (trivial; apply f32_max_i32).
        apply Rlt_bool_false. rewrite (proj2 f32_max_i32).
        specialize (Hb F). rewrite Rabs_pos_eq in Hb by (apply sign_val_pos; assumption).
        exact Hb.
      - destruct x; try discriminate; simpl in S; unfold sign_bit in S; simpl in S; subst; reflexivity. }
    rewrite L. assumption.
Qed.

Lemma floor_nan : forall {E : Env} x, nan x -> F32_floor x = f32_zero false.
Proof.
  intros E x H. unfold F32_floor. cbv zeta. rewrite flt_false_nan by assumption.
  destruct x; try discriminate H. reflexivity.
Qed.

Lemma ceil_big : forall {E : Env} x, is_nan x = false ->
  (fin x -> (bpow radix2 31 <= Rabs (val x))%R) ->
  F32_ceil x = from_bits (if sign_bit x then 0xCF000000 else 0x4F000000).
Proof.
  intros E x Hn Hb. unfold F32_ceil. rewrite floor_big.
  - rewrite fneg_sign. destruct (sign_bit x); apply to_bits_inj; vm_compute; reflexivity.
  - rewrite fneg_is_nan. assumption.
  - intros F. rewrite fneg_val, Rabs_Ropp. apply Hb. unfold fin in *. rewrite fneg_is_finite in F. assumption.
Qed.

Lemma ceil_nan : forall {E : Env} x, nan x -> F32_ceil x = f32_zero true.
Proof.
  intros E x H. unfold F32_ceil. rewrite floor_nan; [reflexivity|].
  unfold nan. rewrite fneg_is_nan. assumption.
Qed.

(** ** round *)

Lemma half_val : fin c_0_5 /\ val c_0_5 = (/ 2)%R.
Proof.
  split; [reflexivity|]. rewrite val_bits by reflexivity.
  unfold c_0_5. rewrite to_from_bits by lia.
  rewrite (bval_pos _ 126 0); try reflexivity; [|lia].
  change (126 - 150) with (-24). change (2 ^ 23 + 0) with (2 ^ 23).
  rewrite <- bpow_Z, <- bpow_plus by lia. reflexivity.
Qed.

Lemma half_signed : forall x,
  fin (F32_copysign c_0_5 x) /\ val (F32_copysign c_0_5 x) = (sgn x * / 2)%R.
Proof.
  intros x. rewrite copysign_with_sign. split; [reflexivity|].
  rewrite with_sign_val, (proj2 half_val). fold (sgn x). rewrite Rabs_pos_eq by lra. reflexivity.
Qed.

Lemma rnd_sgn : forall x r, rnd (sgn x * r) = (sgn x * rnd r)%R.
Proof.
  intros x r. unfold sgn. destruct (sign_bit x).
  - replace (-1 * r)%R with (- r)%R by ring. rewrite rnd_opp. ring.
  - rewrite !Rmult_1_l. reflexivity.
Qed.

Lemma rnd_nonneg : forall r, (0 <= r)%R -> (0 <= rnd r)%R.
Proof.
  intros r H. replace 0%R with (rnd 0) by (apply rnd_fmt; apply generic_format_0).
  apply rnd_le. assumption.
Qed.

(** The sum in [round]. *)
Lemma round_sum : forall {E : Env} x, fin x -> (Rabs (val x) <= bpow radix2 126)%R ->
  let y := fadd x (F32_copysign c_0_5 x) in
  fin y /\ val y = (sgn x * rnd (Rabs (val x) + / 2))%R.
Proof.
  intros E x Hx Hb y. destruct (half_signed x) as [A B].
  assert (V : (val x + val (F32_copysign c_0_5 x) = sgn x * (Rabs (val x) + / 2))%R).
  { rewrite B, (val_signed x) at 1. fold (sgn x). ring. }
  destruct (fadd_R x (F32_copysign c_0_5 x) Hx A) as [F G].
  - apply (small_lt_128 127); [lia|]. rewrite V, sgn_abs, Rabs_pos_eq
      by (pose proof (Rabs_pos (val x)); lra).
    change 127 with (1 + 126). rewrite bpow_plus.
    assert (bpow radix2 0 <= bpow radix2 126)%R by (apply bpow_le; lia).
    simpl (bpow radix2 0) in H. change (bpow radix2 1) with 2%R. lra.
  - split; [assumption|]. unfold y. rewrite G, V. apply rnd_sgn.
Qed.

Lemma round_half_away_sgn : forall x, fin x ->
  IZR (round_half_away (val x)) = (sgn x * IZR (Zfloor (Rabs (val x) + / 2)))%R.
Proof.
  intros x Hx. unfold round_half_away. unfold sgn.
  replace (1 / 2)%R with (/ 2)%R by lra.
  destruct (Rle_bool_spec 0 (val x)) as [P|P].
  - rewrite Rabs_pos_eq by assumption. destruct (sign_bit x) eqn:S; [|ring].
    pose proof (sign_val_neg x S). replace (val x) with 0%R by lra.
    replace (Zfloor (0 + / 2)) with 0; [simpl; ring|].
    symmetry. apply Zfloor_imp. simpl. lra.
  - destruct (sign_bit x) eqn:S.
    + rewrite Rabs_left by assumption. unfold Zceil. rewrite opp_IZR.
      replace (- (val x - / 2))%R with (- val x + / 2)%R by ring. ring.
    + pose proof (sign_val_pos x S). lra.
Qed.

(** Composition: [round] is the floor of the rounded sum. *)
Lemma round_floor : forall {E : Env} x, fin x ->
  (rnd (Rabs (val x) + / 2) <= bpow radix2 31)%R ->
  fin (F32_round x) /\
  val (F32_round x) = (sgn x * IZR (Zfloor (rnd (Rabs (val x) + / 2))))%R.
Proof.
  intros E x Hx Hb. unfold F32_round.
  pose proof (Rabs_pos (val x)) as P.
  assert (U : (Rabs (val x) <= bpow radix2 126)%R).
  { apply Rle_trans with (bpow radix2 31); [|apply bpow_le; lia].
    apply Rle_trans with (2 := Hb). rewrite <- (rnd_fmt (Rabs (val x))) at 1.
    - apply rnd_le. lra.
    - apply generic_format_abs, fmt_val. }
  destruct (round_sum x Hx U) as [A B].
  assert (N : (0 <= rnd (Rabs (val x) + / 2))%R) by (apply rnd_nonneg; lra).
  destruct (to_from_i32 _ A) as [C D].
  - rewrite B, sgn_abs, Rabs_pos_eq by assumption. assumption.
  - split; [assumption|]. rewrite D, B. apply Ztrunc_sgn. assumption.
Qed.

Definition pred_half : f32 := from_bits 0x3EFFFFFF.

Lemma below_half : forall a, fin a -> (0 <= val a < / 2)%R -> val a <> val pred_half ->
  (val a + / 2 <= IZR (2 ^ 24 - 1) * bpow radix2 (-24))%R.
Proof.
  intros a0 Ha [P L] N.
  assert (exists a, fin a /\ sign_bit a = false /\ val a = val a0) as (a & Fa & Sa & Va).
  { exists (F32_abs a0). unfold fin. rewrite abs_fin, abs_sign, abs_val, Rabs_pos_eq by assumption. auto. }
  rewrite <- Va in *. clear a0 Va Ha.
  assert (B : to_bits a <= 0x3EFFFFFE).
  { rewrite sign_bit_ge in Sa. apply Z.leb_gt in Sa. pose proof (to_bits_range a) as R.
    pose proof (bexp_lt a (-1) Fa ltac:(lia)) as X.
    rewrite Rabs_pos_eq in X by assumption. specialize (X L).
    pose proof (bits_split _ R) as [S1 S2]. pose proof (bman_range (to_bits a)).
    pose proof (bexp_range (to_bits a)).
    assert (to_bits a <> 0x3EFFFFFF).
    { intros C. apply N. f_equal. apply to_bits_inj. rewrite C. unfold pred_half.
      rewrite to_from_bits by lia. reflexivity. }
    lia. }
  pose proof (to_bits_range a).
  pose proof (bval_mono (to_bits a) 0x3EFFFFFE ltac:(lia) ltac:(lia)) as [_ M].
  rewrite <- val_bits in M by assumption.
  rewrite (bval_pos 0x3EFFFFFE 125 0x7FFFFE) in M; try reflexivity; [|lia].
  change (125 - 150) with (-25) in M. change (2 ^ 23 + 0x7FFFFE) with (2 * (2 ^ 23 - 1) + 0) in M.
  rewrite Z.add_0_r, mult_IZR in M.
  change (-25) with (-1 + -24) in M. rewrite bpow_plus in M.
  change (bpow radix2 (-1)) with (/ 2)%R in M.
  assert (HB : (IZR (2 ^ 24) * bpow radix2 (-24) = 1)%R).
  { change (IZR (2 ^ 24)) with (bpow radix2 24). rewrite <- bpow_plus. reflexivity. }
  change (2 ^ 24) with (2 * 2 ^ 23) in HB |- *. rewrite mult_IZR in HB.
  rewrite minus_IZR in M |- *. rewrite mult_IZR.
  pose proof (bpow_gt_0 radix2 (-24)).
  set (B24 := bpow radix2 (-24)) in *. set (I := IZR (2 ^ 23)) in *. nra.
Qed.

Lemma rnd_half_floor : forall x, fin x ->
  let a := Rabs (val x) in (a <= bpow radix2 23)%R -> a <> val pred_half ->
  Zfloor (rnd (a + / 2)) = Zfloor (a + / 2).
Proof.
  intros x Hx a Hb Hp. assert (P : (0 <= a)%R) by apply Rabs_pos.
  set (n := Zfloor (a + / 2)).
  assert (N0 : 0 <= n) by (apply Zfloor_lub; simpl; lra).
  assert (N1 : (IZR n <= a + / 2)%R) by apply Zfloor_lb.
  assert (N2 : (a + / 2 < IZR n + 1)%R) by apply Zfloor_ub.
  assert (N3 : n <= 2 ^ 23).
  { assert (n < 2 ^ 23 + 1); [|lia]. apply lt_IZR. rewrite plus_IZR.
    change (IZR (2 ^ 23)) with (bpow radix2 23). lra. }
  apply Zfloor_imp. rewrite plus_IZR. split.
  { rewrite <- (rnd_fmt (IZR n)) by (apply fmt_IZR; lia). apply rnd_le. assumption. }
  assert (Up : forall u, fmt u -> (a + / 2 <= u)%R -> (u < IZR n + 1)%R ->
    (rnd (a + / 2) < IZR n + 1)%R).
  { intros u Fu H1 H2. apply Rle_lt_trans with (2 := H2). rewrite <- (rnd_fmt u Fu).
    apply rnd_le. assumption. }
  destruct (Z.eq_dec n (2 ^ 23)) as [E|E].
  { apply Rle_lt_trans with (IZR n); [|lra].
    apply Rle_trans with (rnd (IZR n + / 2)).
    - apply rnd_le. rewrite E. change (IZR (2 ^ 23)) with (bpow radix2 23). lra.
    - rewrite E, (rnd_scaled _ 0); [|lia|].
      + simpl bpow. rewrite !Rmult_1_r. apply IZR_le.
        unfold ZnearestE. rewrite (Zfloor_imp (2 ^ 23)) by (rewrite plus_IZR; lra).
        replace (IZR (2 ^ 23) + / 2 - IZR (2 ^ 23))%R with (/ 2)%R by ring.
        rewrite Rcompare_Eq by reflexivity. reflexivity.
      + change (bpow radix2 (0 + 23)) with (IZR (2 ^ 23)).
        change (bpow radix2 (0 + 24)) with (IZR (2 ^ 23 * 2)). rewrite mult_IZR.
        assert (1 <= IZR (2 ^ 23))%R by (apply IZR_le; lia).
        rewrite Rabs_pos_eq; lra. }
  destruct (Rle_or_lt a (IZR n)) as [L|L].
  { apply (Up (IZR (2 * n + 1) * bpow radix2 (-1))%R).
    - apply fmt_scaled; lia.
    - change (bpow radix2 (-1)) with (/ 2)%R. rewrite plus_IZR, mult_IZR. lra.
    - change (bpow radix2 (-1)) with (/ 2)%R. rewrite plus_IZR, mult_IZR. lra. }
  destruct (Z.eq_dec n 0) as [Z0|Z0].
  { rewrite Z0 in *. apply (Up (IZR (2 ^ 24 - 1) * bpow radix2 (-24))%R).
    - apply fmt_scaled; lia.
    - unfold a in *. rewrite <- abs_val. rewrite <- abs_val in *. apply below_half.
      + unfold fin. rewrite abs_fin. assumption.
      + lra.
      + assumption.
    - assert (HB : (IZR (2 ^ 24) * bpow radix2 (-24) = 1)%R).
      { change (IZR (2 ^ 24)) with (bpow radix2 24). rewrite <- bpow_plus. reflexivity. }
      rewrite minus_IZR. pose proof (bpow_gt_0 radix2 (-24)). lra. }
  (* 1 <= n < a < n + 1/2 *)
  assert (A1 : (1 <= a)%R). { assert (1 <= IZR n)%R by (apply IZR_le; lia). lra. }
  pose proof (bexp_ge x 0 Hx ltac:(lia) A1) as K0.
  assert (A2 : (a < bpow radix2 23)%R).
  { assert (IZR n <= IZR (2 ^ 23 - 1))%R by (apply IZR_le; lia). rewrite minus_IZR in H.
    change (bpow radix2 23) with (IZR (2 ^ 23)). lra. }
  pose proof (bexp_lt x 23 Hx ltac:(lia) A2) as K1.
  pose proof (abs_normal x Hx ltac:(lia)) as V. fold a in V.
  pose proof (abs_normal_bounds x Hx ltac:(lia)) as [_ V2]. fold a in V2.
  set (k := bexp (to_bits x) - 127) in *.
  set (M := 2 ^ 23 + bman (to_bits x)) in *.
  replace (bexp (to_bits x) - 150) with (- (23 - k)) in V by (unfold k; ring).
  replace (bexp (to_bits x) - 126) with (k + 1) in V2 by (unfold k; ring).
  rewrite bpow_Z in V2 by lia.
  assert (NK : n < 2 ^ (k + 1)) by (apply lt_IZR; lra).
  set (j := 23 - k) in *.
  assert (Pj : (bpow radix2 (- j) * IZR (2 ^ j) = 1)%R).
  { rewrite <- bpow_Z, <- bpow_plus by lia. replace (- j + j) with 0 by ring. reflexivity. }
  pose proof (bpow_gt_0 radix2 (- j)) as Pb. set (B := bpow radix2 (- j)) in *.
  assert (J2 : 2 ^ j = 2 * 2 ^ (j - 1)).
  { rewrite <- Z.pow_succ_r by lia. f_equal. lia. }
  assert (I : M < (2 * n + 1) * 2 ^ (j - 1)).
  { apply lt_IZR. apply Rmult_lt_reg_r with B; [assumption|].
    rewrite <- V. rewrite mult_IZR, plus_IZR, mult_IZR.
    rewrite J2, mult_IZR in Pj. nra. }
  assert (U24 : (n + 1) * 2 ^ j <= 2 ^ 24).
  { assert (2 ^ 24 = 2 ^ (k + 1) * 2 ^ j) by (rewrite <- Z.pow_add_r by lia; f_equal; lia).
    nia. }
  apply (Up (IZR ((n + 1) * 2 ^ j - 1) * B)%R).
  - apply fmt_scaled; [|lia]. nia.
  - rewrite V.
    assert (M + 2 ^ (j - 1) <= (n + 1) * 2 ^ j - 1) by lia.
    apply IZR_le in H. rewrite plus_IZR in H.
    rewrite J2, mult_IZR in Pj.
    assert (IZR M * B + IZR (2 ^ (j - 1)) * B <= IZR ((n + 1) * 2 ^ j - 1) * B)%R by nra.
    lra.
  - rewrite minus_IZR, mult_IZR, plus_IZR. nra.
Qed.

Lemma round_exact : forall {E : Env} x, fin x -> (Rabs (val x) <= bpow radix2 23)%R ->
  Rabs (val x) <> val pred_half ->
  fin (F32_round x) /\ val (F32_round x) = IZR (round_half_away (val x)).
Proof.
  intros E x Hx Hb Hp. pose proof (rnd_half_floor x Hx Hb Hp) as F.
  destruct (round_floor x Hx) as [A B].
  - apply Rle_trans with (rnd (bpow radix2 24)).
    + apply rnd_le. change (bpow radix2 24) with (2 * bpow radix2 23)%R.
      assert (1 <= bpow radix2 23)%R by (apply (IZR_le 1 (2 ^ 23)); lia). lra.
    + rewrite rnd_fmt by (apply fmt_bpow; lia). apply bpow_le. lia.
  - split; [assumption|]. rewrite B, F. symmetry. apply round_half_away_sgn. assumption.
Qed.

Lemma round_int24 : forall {E : Env} x N, fin x -> Rabs (val x) = IZR N ->
  2 ^ 23 <= N < 2 ^ 24 ->
  fin (F32_round x) /\
  val (F32_round x) = (sgn x * IZR (if Z.even N then N else N + 1))%R.
Proof.
  intros E x N Hx HN HR.
  assert (R : rnd (Rabs (val x) + / 2) = IZR (if Z.even N then N else N + 1)).
  { assert (B1 : (IZR (2 ^ 23) <= IZR N)%R) by (apply IZR_le; lia).
    assert (B2 : (IZR N <= IZR (2 ^ 24 - 1))%R) by (apply IZR_le; lia).
    rewrite minus_IZR in B2.
    assert (B0 : (0 <= IZR (2 ^ 23))%R) by (apply IZR_le; lia).
    rewrite HN, (rnd_scaled _ 0); [|lia|].
    + simpl bpow. rewrite !Rmult_1_r. f_equal.
      unfold ZnearestE. rewrite (Zfloor_imp N) by (rewrite plus_IZR; lra).
      replace (IZR N + / 2 - IZR N)%R with (/ 2)%R by ring.
      rewrite Rcompare_Eq by reflexivity.
      destruct (Z.even N); simpl negb; cbv iota; [reflexivity|].
      apply Zceil_imp. replace (N + 1 - 1) with N by ring. rewrite plus_IZR. lra.
    + change (bpow radix2 (0 + 23)) with (IZR (2 ^ 23)).
      change (bpow radix2 (0 + 24)) with (IZR (2 ^ 24)).
      rewrite Rabs_pos_eq; lra. }
  destruct (round_floor x Hx) as [A B].
  - rewrite R. change (bpow radix2 31) with (IZR (2 ^ 31)). apply IZR_le.
    destruct (Z.even N); lia.
  - split; [assumption|]. rewrite B, R, Zfloor_IZR. reflexivity.
Qed.

Lemma rnd_big_half : forall x, fin x -> (bpow radix2 24 <= Rabs (val x))%R ->
  rnd (Rabs (val x) + / 2) = Rabs (val x).
Proof.
  intros x Hx L. pose proof (bexp_ge x 24 Hx ltac:(lia) L) as K.
  pose proof (proj1 (fin_bexp_lt x) Hx) as U.
  pose proof (abs_normal x Hx ltac:(lia)) as V.
  set (j := bexp (to_bits x) - 150) in *.
  pose proof (bman_range (to_bits x)). set (M := 2 ^ 23 + bman (to_bits x)) in *.
  assert (Pj : (bpow radix2 j * bpow radix2 (- j) = 1)%R).
  { rewrite <- bpow_plus, Z.add_opp_diag_r. reflexivity. }
  assert (B2 : (2 <= bpow radix2 j)%R).
  { change 2%R with (bpow radix2 1). apply bpow_le. lia. }
  assert (B3 : (0 < bpow radix2 (- j))%R) by apply bpow_gt_0.
  set (B := bpow radix2 j) in *. set (B' := bpow radix2 (- j)) in *.
  assert (B4 : (B' <= / 2)%R) by nra.
  assert (M1 : (IZR (2 ^ 23) <= IZR M)%R) by (apply IZR_le; lia).
  assert (M2 : (IZR M <= IZR (2 ^ 24) - 1)%R) by (rewrite <- minus_IZR; apply IZR_le; lia).
  assert (Q : (0 <= IZR (2 ^ 23))%R) by (apply IZR_le; lia).
  rewrite (rnd_scaled _ j); [|lia|].
  - rewrite V. fold B B'. f_equal. f_equal. apply Znearest_imp.
    replace ((IZR M * B + / 2) * B' - IZR M)%R with (/ 2 * B')%R by nra.
    rewrite Rabs_pos_eq; lra.
  - rewrite (Z.add_comm j), (Z.add_comm j 24), !bpow_plus. fold B.
    change (bpow radix2 23) with (IZR (2 ^ 23)). change (bpow radix2 24) with (IZR (2 ^ 24)).
    rewrite V. rewrite Rabs_pos_eq by nra. nra.
Qed.

Lemma round_int31 : forall {E : Env} x, fin x ->
  (bpow radix2 24 <= Rabs (val x) <= bpow radix2 31)%R ->
  fin (F32_round x) /\ val (F32_round x) = val x.
Proof.
  intros E x Hx [L U]. pose proof (rnd_big_half x Hx L) as R.
  destruct (round_floor x Hx) as [A B].
  - rewrite R. assumption.
  - split; [assumption|]. rewrite B, R.
    destruct (large_integer x Hx) as [n Hn].
    { apply Rle_trans with (2 := L). apply bpow_le. lia. }
    rewrite (val_signed x) at 2. fold (sgn x). f_equal.
    rewrite Hn, <- abs_IZR, Zfloor_IZR. reflexivity.
Qed.

Lemma fadd_half_inf : forall {E : Env} x, is_infinite x = true ->
  fadd x (F32_copysign c_0_5 x) = x.
Proof.
  intros E x H. destruct x; try discriminate H. rewrite copysign_with_sign. reflexivity.
Qed.

Lemma round_big : forall {E : Env} x, is_nan x = false ->
  (fin x -> (bpow radix2 31 <= Rabs (val x))%R) ->
  F32_round x = from_bits (if sign_bit x then 0xCF000000 else 0x4F000000).
Proof.
  intros E x Hn Hb. unfold F32_round.
  assert (X : fadd x (F32_copysign c_0_5 x) = x).
  { destruct (is_finite x) eqn:F.
    - specialize (Hb F).
      assert (L : (bpow radix2 24 <= Rabs (val x))%R)
        by (apply Rle_trans with (2 := Hb); apply bpow_le; lia).
      pose proof (rnd_big_half x F L) as R. destruct (half_signed x) as [A B].
      assert (V : (val x + val (F32_copysign c_0_5 x) = sgn x * (Rabs (val x) + / 2))%R).
      { rewrite B, (val_signed x) at 1. fold (sgn x). ring. }
      assert (V2 : rnd (val x + val (F32_copysign c_0_5 x)) = val x).
      { rewrite V, rnd_sgn, R. symmetry. apply val_signed. }
      destruct (fadd_R x (F32_copysign c_0_5 x) F A) as [G1 G2].
      { rewrite V2. apply (abs_B2R_lt_emax 24 128). }
      rewrite V2 in G2. apply val_inj_nz; trivial. rewrite G2.
      intros Z0. rewrite Z0, Rabs_R0 in L. pose proof (bpow_gt_0 radix2 24). lra.
    - apply fadd_half_inf. destruct x; try discriminate; reflexivity. }
  rewrite X, to_i32_big by assumption.
  destruct (sign_bit x); apply to_bits_inj; vm_compute; reflexivity.
Qed.

Lemma fadd_nan_l : forall {E : Env} x y, nan x -> nan (fadd x y).
Proof.
  intros E x y H. destruct x; try discriminate H. unfold fadd, Bplus.
  destruct y; unfold nan, is_nan; apply is_nan_build_nan.
Qed.

Lemma round_nan : forall {E : Env} x, nan x -> F32_round x = f32_zero false.
Proof.
  intros E x H. unfold F32_round. pose proof (fadd_nan_l x (F32_copysign c_0_5 x) H) as N.
  destruct (fadd x _); try discriminate N. reflexivity.
Qed.

Lemma round_pred_half : forall {E : Env},
  F32_round pred_half = from_bits 0x3F800000 /\
  F32_round (fneg pred_half) = from_bits 0xBF800000.
Proof. intros E. split; apply to_bits_inj; vm_compute; reflexivity. Qed.
