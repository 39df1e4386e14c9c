(** * Proofs: trunc and fract *)

From Coq Require Import ZArith Reals Bool List Lia Lra.
From Flocq Require Import Core IEEE754.BinarySingleNaN IEEE754.Binary IEEE754.Bits.
From Verif Require Import Base Spec Float F32Lemmas BitLemmas.
Open Scope Z_scope.

Lemma land_not : forall b m, 0 <= b < 2 ^ 32 -> 0 <= m < 2 ^ 32 ->
  Z.land b (not32 m) = Z.ldiff b m.
Proof.
  intros b m Hb Hm. apply Z.bits_inj'. intros n Hn. unfold not32.
  rewrite Z.land_spec, Z.lxor_spec, Z.ldiff_spec.
  change 0xFFFFFFFF with (Z.ones 32).
  destruct (Z.lt_ge_cases n 32) as [L|L].
  - rewrite Z.ones_spec_low by lia. rewrite xorb_true_r. reflexivity.
  - assert (T : Z.testbit b n = false).
    { destruct (Z.eq_dec b 0) as [->|N]; [apply Z.bits_0|].
      apply Z.bits_above_log2; [lia|]. apply Z.log2_lt_pow2; [lia|].
      apply Z.lt_le_trans with (2 ^ 32); [lia|]. apply Z.pow_le_mono_r; lia. }
    rewrite T. reflexivity.
Qed.

Lemma clear_low : forall b j, 0 <= b < 2 ^ 32 -> 0 <= j <= 32 ->
  Z.land b (not32 (b mod 2 ^ j)) = b - b mod 2 ^ j.
Proof.
  intros b j Hb Hj.
  pose proof (Z.mod_pos_bound b (2 ^ j) ltac:(lia)).
  assert (2 ^ j <= 2 ^ 32) by (apply Z.pow_le_mono_r; lia).
  rewrite land_not by lia. symmetry. apply Z.sub_nocarry_ldiff.
  rewrite <- Z.land_ones by lia. apply Z.bits_inj'. intros n Hn.
  rewrite Z.ldiff_spec, Z.land_spec, Z.bits_0.
  destruct (Z.testbit b n); [rewrite andb_false_r|]; reflexivity.
Qed.

(** The fractional bits, aligned at the top of the mantissa field. *)
Lemma frac_part : forall b e, 0 <= b < 2 ^ 32 ->
  Z.land (shl32 b e) MANTISSA_MASK =
  (if e mod 32 <? 23 then (bman b mod 2 ^ (23 - e mod 32)) * 2 ^ (e mod 32) else 0).
Proof.
  intros b e Hb. rewrite land_mant. unfold bman, shl32.
  pose proof (Z.mod_pos_bound e 32 ltac:(lia)). set (k := e mod 32) in *.
  rewrite Z.shiftl_mul_pow2 by lia.
  rewrite mod_pow_mod by lia.
  destruct (k <? 23) eqn:K; [apply Z.ltb_lt in K|apply Z.ltb_ge in K].
  - rewrite mod_pow_mod by lia.
    replace (2 ^ 23) with (2 ^ (23 - k) * 2 ^ k)
      by (rewrite <- Z.pow_add_r by lia; f_equal; lia).
    apply Zmult_mod_distr_r.
  - replace (2 ^ k) with (2 ^ (k - 23) * 2 ^ 23)
      by (rewrite <- Z.pow_add_r by lia; f_equal; lia).
    rewrite Z.mul_assoc. apply Z.mod_mul. lia.
Qed.

(** Bits of [trunc] for a non-negative exponent, in terms of the shift amount
    actually used (the exponent modulo 32). *)
Lemma trunc_bits : forall x, 127 <= bexp (to_bits x) ->
  let b := to_bits x in
  let k := (bexp b - 127) mod 32 in
  to_bits (F32_trunc x) = b - (if k <? 23 then bman b mod 2 ^ (23 - k) else 0).
Proof.
  intros x He b k. unfold F32_trunc. cbv zeta.
  rewrite extract_exponent_value_eq. fold b in He |- *.
  replace (bexp b - 127 <? 0) with false by (symmetry; apply Z.ltb_ge; lia).
  rewrite Z.max_l by lia.
  pose proof (to_bits_range x) as R. fold b in R.
  rewrite frac_part by assumption. fold k.
  pose proof (Z.mod_pos_bound (bexp b - 127) 32 ltac:(lia)) as Kr. fold k in Kr.
  destruct (k <? 23) eqn:K.
  - apply Z.ltb_lt in K.
    pose proof (Z.mod_pos_bound (bman b) (2 ^ (23 - k)) ltac:(lia)) as Mr.
    destruct (_ =? 0) eqn:Z0.
    + apply Z.eqb_eq in Z0. assert (bman b mod 2 ^ (23 - k) = 0) by nia. fold b. lia.
    + unfold shr32. fold k. rewrite Z.shiftr_div_pow2, Z.div_mul by lia.
      assert (ME : bman b mod 2 ^ (23 - k) = b mod 2 ^ (23 - k)).
      { unfold bman. apply mod_pow_mod. lia. }
      rewrite ME. rewrite clear_low by lia. apply to_from_bits.
      pose proof (Z.mod_le b (2 ^ (23 - k)) ltac:(lia) ltac:(lia)).
      pose proof (Z.mod_pos_bound b (2 ^ (23 - k)) ltac:(lia)). lia.
  - simpl (0 =? 0). cbv iota. fold b. lia.
Qed.

Lemma trunc_small : forall x, bexp (to_bits x) < 127 -> F32_trunc x = f32_zero (sign_bit x).
Proof.
  intros x He. unfold F32_trunc. cbv zeta. rewrite extract_exponent_value_eq.
  replace (bexp (to_bits x) - 127 <? 0) with true by (symmetry; apply Z.ltb_lt; lia).
  rewrite copysign_with_sign. reflexivity.
Qed.

(** Fields after clearing fractional bits. *)
Lemma trunc_fields : forall x, 127 <= bexp (to_bits x) ->
  let b := to_bits x in
  let k := (bexp b - 127) mod 32 in
  bsign (to_bits (F32_trunc x)) = bsign b /\
  bexp (to_bits (F32_trunc x)) = bexp b /\
  bman (to_bits (F32_trunc x)) = bman b - (if k <? 23 then bman b mod 2 ^ (23 - k) else 0).
Proof.
  intros x He b k. rewrite trunc_bits by assumption. fold b. fold k.
  pose proof (to_bits_range x) as R. fold b in R.
  set (f := if k <? 23 then bman b mod 2 ^ (23 - k) else 0).
  pose proof (bman_range b). pose proof (bexp_range b). pose proof (bsign_range b R).
  assert (F : 0 <= f <= bman b).
  { unfold f. destruct (k <? 23) eqn:K; [|lia]. apply Z.ltb_lt in K.
    pose proof (Z.mod_pos_bound (bman b) (2 ^ (23 - k)) ltac:(lia)).
    pose proof (Z.mod_le (bman b) (2 ^ (23 - k)) ltac:(lia) ltac:(lia)). lia. }
  replace (b - f) with (mkbits (bsign b) (bexp b) (bman b - f))
    by (rewrite (mkbits_eq b R) at 4; unfold mkbits; ring).
  apply mkbits_fields; lia.
Qed.

Lemma sign_bit_eq_bsign : forall x y, bsign (to_bits x) = bsign (to_bits y) -> sign_bit x = sign_bit y.
Proof. intros x y H. rewrite !sign_bit_bsign, H. reflexivity. Qed.

Lemma Ztrunc_sgn : forall x r, (0 <= r)%R -> IZR (Ztrunc (sgn x * r)) = (sgn x * IZR (Zfloor r))%R.
Proof.
  intros x r Hr. unfold sgn. destruct (sign_bit x).
  - replace (-1 * r)%R with (- r)%R by ring. rewrite Ztrunc_opp, opp_IZR, Ztrunc_floor by assumption. ring.
  - rewrite !Rmult_1_l. rewrite Ztrunc_floor by assumption. reflexivity.
Qed.

Lemma Ztrunc_val : forall x, IZR (Ztrunc (val x)) = (sgn x * IZR (Zfloor (Rabs (val x))))%R.
Proof.
  intros x. rewrite <- Ztrunc_sgn by apply Rabs_pos. unfold sgn. rewrite <- val_signed. reflexivity.
Qed.

(** The modulus at which [trunc] really cuts: 2^(32*floor(e/32)). *)
Definition cut (x : f32) : Z :=
  let e := bexp (to_bits x) - 127 in e - e mod 32.

Lemma trunc_general : forall x, fin x -> (1 <= Rabs (val x))%R ->
  fin (F32_trunc x) /\ sign_bit (F32_trunc x) = sign_bit x /\
  val (F32_trunc x) =
    (sgn x * (IZR (Zfloor (Rabs (val x) * bpow radix2 (- cut x))) * bpow radix2 (cut x)))%R.
Proof.
  intros x Hx H1.
  pose proof (bexp_ge x 0 Hx ltac:(lia) H1) as L. simpl in L.
  pose proof (proj1 (fin_bexp_lt x) Hx) as U.
  pose proof (trunc_fields x L) as F. cbv zeta in F. unfold cut.
  set (b := to_bits x) in *.
  pose proof (Z.mod_pos_bound (bexp b - 127) 32 ltac:(lia)) as Kr.
  set (k := (bexp b - 127) mod 32) in *. destruct F as (F1 & F2 & F3).
  pose proof (bman_range b) as Hm.
  assert (T : fin (F32_trunc x)) by (apply fin_bexp_lt; rewrite F2; lia).
  assert (S : sign_bit (F32_trunc x) = sign_bit x) by (apply sign_bit_eq_bsign; assumption).
  split; [assumption|]. split; [assumption|].
  rewrite (val_normal (F32_trunc x)) by (rewrite ?F2; trivial; lia).
  rewrite (abs_normal x) by (trivial; fold b; lia). fold b.
  unfold sgn. rewrite S. f_equal. rewrite F2, F3.
  rewrite Rmult_assoc, <- bpow_plus.
  set (q := bexp b - 127 - k). replace (bexp b - 150 + - q) with (k - 23) by (unfold q; lia).
  replace (bexp b - 150) with (k - 23 + q) by (unfold q; lia). rewrite bpow_plus, <- Rmult_assoc.
  f_equal.
  destruct (k <? 23) eqn:K; [apply Z.ltb_lt in K|apply Z.ltb_ge in K].
  + replace (k - 23) with (- (23 - k)) by lia.
    rewrite (bpow_opp radix2 (23 - k)), (bpow_Z (23 - k)) by lia.
    change (IZR (2 ^ 23 + bman b) * / IZR (2 ^ (23 - k)))%R
      with (IZR (2 ^ 23 + bman b) / IZR (2 ^ (23 - k)))%R.
    rewrite Zfloor_div by lia.
    assert (IZR (2 ^ (23 - k)) <> 0)%R by (apply IZR_neq; lia).
    apply Rmult_eq_reg_r with (IZR (2 ^ (23 - k))); [|assumption].
    rewrite Rmult_assoc, Rinv_l, Rmult_1_r by assumption.
    rewrite <- mult_IZR. f_equal.
    replace (2 ^ 23) with (2 ^ k * 2 ^ (23 - k))
      by (rewrite <- Z.pow_add_r by lia; f_equal; lia).
    rewrite Z.div_add_l by lia.
    pose proof (Z.div_mod (bman b) (2 ^ (23 - k)) ltac:(lia)). lia.
  + rewrite Z.sub_0_r. rewrite bpow_Z by lia. rewrite <- mult_IZR, Zfloor_IZR. reflexivity.
Qed.

Lemma cut_small : forall x, fin x -> (1 <= Rabs (val x) < bpow radix2 32)%R -> cut x = 0.
Proof.
  intros x Hx [H1 H2].
  pose proof (bexp_ge x 0 Hx ltac:(lia) H1) as L.
  pose proof (bexp_lt x 32 Hx ltac:(lia) H2) as U.
  unfold cut. rewrite Z.mod_small; lia.
Qed.

Lemma trunc_exact : forall x, fin x -> (Rabs (val x) < bpow radix2 32)%R ->
  fin (F32_trunc x) /\ val (F32_trunc x) = IZR (Ztrunc (val x)) /\
  sign_bit (F32_trunc x) = sign_bit x.
Proof.
  intros x Hx Hb. destruct (Rle_or_lt 1 (Rabs (val x))) as [L|L].
  - destruct (trunc_general x Hx L) as (A & B & C).
    split; [assumption|]. split; [|assumption].
    rewrite (cut_small x Hx (conj L Hb)) in C. simpl bpow in C. rewrite !Rmult_1_r in C.
    rewrite C, Ztrunc_val. reflexivity.
  - pose proof (bexp_lt x 0 Hx ltac:(lia) L) as U.
    rewrite trunc_small by assumption. split; [reflexivity|]. split; [|destruct (sign_bit x); reflexivity].
    unfold val at 1; simpl B2R.
    rewrite Ztrunc_val. rewrite (Zfloor_imp 0); [ring|].
    split; [apply Rabs_pos|]. assumption.
Qed.

(** A finite float of magnitude at least 2^23 is an integer. *)
Lemma large_integer : forall x, fin x -> (bpow radix2 23 <= Rabs (val x))%R ->
  exists n, val x = IZR n.
Proof.
  intros x Hx H. pose proof (bexp_ge x 23 Hx ltac:(lia) H) as L.
  rewrite val_normal by (trivial; lia). rewrite bpow_Z by lia.
  unfold sgn. destruct (sign_bit x).
  - exists (- ((2 ^ 23 + bman (to_bits x)) * 2 ^ (bexp (to_bits x) - 150))).
    rewrite opp_IZR, mult_IZR. ring.
  - exists ((2 ^ 23 + bman (to_bits x)) * 2 ^ (bexp (to_bits x) - 150)).
    rewrite mult_IZR. ring.
Qed.

Lemma trunc_fixed_iff : forall x, fin x -> (1 <= Rabs (val x))%R ->
  (F32_trunc x = x <-> exists n, Rabs (val x) = (IZR n * bpow radix2 (cut x))%R).
Proof.
  intros x Hx H1. destruct (trunc_general x Hx H1) as (A & B & C).
  assert (P : (bpow radix2 (- cut x) * bpow radix2 (cut x) = 1)%R).
  { rewrite <- bpow_plus. rewrite Z.add_opp_diag_l. reflexivity. }
  split.
  - intros E. rewrite E in C. rewrite (val_signed x) in C at 1. fold (sgn x) in C.
    exists (Zfloor (Rabs (val x) * bpow radix2 (- cut x))).
    apply Rmult_eq_reg_l with (sgn x); [assumption|].
    destruct (sgn_val x); lra.
  - intros [n Hn]. apply fin_dec_eq; trivial. rewrite C.
    rewrite Hn at 1. rewrite Rmult_assoc, (Rmult_comm (bpow _ (cut x))), P, Rmult_1_r, Zfloor_IZR.
    rewrite <- Hn. symmetry. apply val_signed.
Qed.

Lemma trunc_nonfinite : forall x, is_finite x = false -> F32_trunc x = f32_inf (sign_bit x).
Proof.
  intros x Hx. rewrite fin_bexp in Hx. apply Z.ltb_ge in Hx.
  pose proof (bexp_range (to_bits x)) as R.
  assert (E : bexp (to_bits x) = 255) by lia.
  pose proof (trunc_fields x ltac:(lia)) as F. cbv zeta in F. rewrite E in F.
  change ((255 - 127) mod 32) with 0 in F. change (0 <? 23) with true in F.
  cbv iota in F. change (23 - 0) with 23 in F.
  rewrite (Z.mod_small _ _ (bman_range _)) in F. rewrite Z.sub_diag in F.
  destruct F as (F1 & F2 & F3).
  pose proof (inf_fields (F32_trunc x)) as I. rewrite F2, F3 in I. change ((255 =? 255) && (0 =? 0)) with true in I.
  pose proof (sign_bit_eq_bsign _ _ F1) as S. rewrite <- S.
  destruct (F32_trunc x); try discriminate I. reflexivity.
Qed.

(** ** fract *)

Lemma arith_ok : forall {E : Env} t z, ity_min t <= z <= ity_max t -> arith t z = Ok z.
Proof.
  intros E t z [A B]. unfold arith, in_range.
  apply Z.leb_le in A. apply Z.leb_le in B. rewrite A, B. reflexivity.
Qed.

(** The bits of [fract]: a normalised fixed-point fraction. *)
Lemma fract_norm : forall {E : Env} fp (s : f32), 0 < fp < 2 ^ 23 ->
  exists z,
    (d <- arith u32 (lz32 fp - (32 - MANTISSA_BITS)) ;;
     exponent_shift <- arith u32 (d + 1) ;;
     let fractional_normalized := Z.land (shl32 fp exponent_shift) MANTISSA_MASK in
     e <- arith u32 (EXPONENT_BIAS - exponent_shift) ;;
     let new_exponent_bits := shl32 e MANTISSA_BITS in
     Ok (F32_copysign (from_bits (Z.lor fractional_normalized new_exponent_bits)) s)) = Ok z
    /\ fin z /\ sign_bit z = sign_bit s /\ val z = (sgn s * (IZR fp * bpow radix2 (-23)))%R.
Proof.
  intros E fp s Hfp.
  pose proof (Z.log2_nonneg fp) as L0.
  assert (L1 : Z.log2 fp < 23) by (apply Z.log2_lt_pow2; lia).
  pose proof (Z.log2_spec fp ltac:(lia)) as [L2 L3].
  set (l := Z.log2 fp) in *.
  assert (Lz : lz32 fp = 31 - l).
  { unfold lz32. replace (fp =? 0) with false by (symmetry; apply Z.eqb_neq; lia). reflexivity. }
  rewrite Lz. change (32 - MANTISSA_BITS) with 9.
  rewrite arith_ok by (change (ity_min u32) with 0; change (ity_max u32) with 4294967295; lia).
  cbv beta iota delta [bind].
  rewrite arith_ok by (change (ity_min u32) with 0; change (ity_max u32) with 4294967295; lia).
  rewrite arith_ok by (change (ity_min u32) with 0; change (ity_max u32) with 4294967295;
    unfold EXPONENT_BIAS; lia).
  replace (31 - l - 9 + 1) with (23 - l) by ring.
  set (sh := 23 - l). eexists. split; [reflexivity|].
  assert (P0 : fp * 2 ^ sh < 2 ^ 24 /\ 2 ^ 23 <= fp * 2 ^ sh).
  { assert (2 ^ 24 = 2 ^ Z.succ l * 2 ^ sh) by (rewrite <- Z.pow_add_r by lia; f_equal; lia).
    assert (2 ^ 23 = 2 ^ l * 2 ^ sh) by (rewrite <- Z.pow_add_r by lia; f_equal; lia).
    rewrite H, H0. assert (0 < 2 ^ sh) by lia. nia. }
  assert (N : Z.land (shl32 fp sh) MANTISSA_MASK = fp * 2 ^ sh - 2 ^ 23).
  { rewrite land_mant. unfold bman, shl32. rewrite (Z.mod_small sh) by lia.
    rewrite Z.shiftl_mul_pow2 by lia. rewrite mod_pow_mod by lia.
    symmetry. apply Z.mod_unique with 1; lia. }
  assert (X : shl32 (EXPONENT_BIAS - sh) MANTISSA_BITS = (127 - sh) * 2 ^ 23).
  { unfold shl32. change (MANTISSA_BITS mod 32) with 23. rewrite Z.shiftl_mul_pow2 by lia.
    apply Z.mod_small. unfold EXPONENT_BIAS. lia. }
  rewrite N, X, lor_shift by lia.
  set (m := fp * 2 ^ sh - 2 ^ 23) in *.
  replace (m + (127 - sh) * 2 ^ 23) with (mkbits 0 (127 - sh) m) by (unfold mkbits; ring).
  destruct (mkbits_fields 0 (127 - sh) m) as (R & A & B & C); [lia|lia|lia|].
  set (b := mkbits 0 (127 - sh) m) in *.
  destruct (val_from_bits b R ltac:(lia)) as [F V].
  rewrite copysign_with_sign.
  split; [destruct (from_bits b); trivial|].
  split; [destruct (from_bits b); reflexivity|].
  rewrite with_sign_val, V. fold (sgn s). f_equal.
  rewrite (bval_pos b _ _ A B C ltac:(lia)).
  replace (2 ^ 23 + m) with (fp * 2 ^ sh) by (unfold m; ring).
  rewrite mult_IZR, <- bpow_Z, Rmult_assoc, <- bpow_plus by lia.
  replace (sh + (127 - sh - 150)) with (-23) by ring.
  apply Rabs_pos_eq. apply Rmult_le_pos; [apply IZR_le; lia|apply bpow_ge_0].
Qed.

Lemma fract_small : forall {E : Env} x, bexp (to_bits x) < 127 -> F32_fract x = Ok x.
Proof.
  intros E x He. unfold F32_fract. cbv zeta. rewrite extract_exponent_value_eq.
  replace (bexp (to_bits x) - 127 <? 0) with true by (symmetry; apply Z.ltb_lt; lia).
  reflexivity.
Qed.

(** Fixed-point fraction. *)
Definition fp_of (x : f32) : Z :=
  let b := to_bits x in
  let k := (bexp b - 127) mod 32 in
  if k <? 23 then bman b mod 2 ^ (23 - k) * 2 ^ k else 0.

Lemma fp_range : forall x, 0 <= fp_of x < 2 ^ 23.
Proof.
  intros x. unfold fp_of.
  pose proof (Z.mod_pos_bound (bexp (to_bits x) - 127) 32 ltac:(lia)) as Kr.
  cbv zeta. set (k := (bexp (to_bits x) - 127) mod 32) in *.
  destruct (k <? 23) eqn:K; [|lia]. apply Z.ltb_lt in K.
  pose proof (Z.mod_pos_bound (bman (to_bits x)) (2 ^ (23 - k)) ltac:(lia)).
  assert (2 ^ 23 = 2 ^ (23 - k) * 2 ^ k) by (rewrite <- Z.pow_add_r by lia; f_equal; lia).
  nia.
Qed.

Lemma fract_bits : forall {E : Env} x, 127 <= bexp (to_bits x) ->
  exists z, F32_fract x = Ok z /\ fin z /\ sign_bit z = sign_bit x /\
    val z = (sgn x * (IZR (fp_of x) * bpow radix2 (-23)))%R.
Proof.
  intros E x L. unfold F32_fract. cbv zeta. rewrite extract_exponent_value_eq.
  replace (bexp (to_bits x) - 127 <? 0) with false by (symmetry; apply Z.ltb_ge; lia).
  rewrite frac_part by apply to_bits_range.
  pose proof (fp_range x) as R. unfold fp_of in R |- *. cbv zeta in R |- *.
  set (fp := if _ <? 23 then _ else _) in *.
  destruct (fp =? 0) eqn:Z0.
  - apply Z.eqb_eq in Z0. rewrite Z0. exists (F32_copysign F32_ZERO x).
    rewrite copysign_with_sign. repeat split.
    unfold val; simpl B2R. ring.
  - apply Z.eqb_neq in Z0. apply (fract_norm fp x). lia.
Qed.

Lemma fract_total : forall {E : Env} x, exists z, F32_fract x = Ok z /\ sign_bit z = sign_bit x.
Proof.
  intros E x. destruct (Z.lt_ge_cases (bexp (to_bits x)) 127) as [L|L].
  - exists x. rewrite fract_small by assumption. split; reflexivity.
  - destruct (fract_bits x L) as (z & A & _ & B & _). exists z. split; assumption.
Qed.

(** What is left above the cut. *)
Lemma fp_value : forall x, fin x -> (1 <= Rabs (val x))%R ->
  let y := (Rabs (val x) * bpow radix2 (- cut x))%R in
  (IZR (fp_of x) * bpow radix2 (-23) = y - IZR (Zfloor y))%R.
Proof.
  intros x Hx H1 y. unfold y, cut, fp_of. clear y.
  pose proof (bexp_ge x 0 Hx ltac:(lia) H1) as L. simpl in L.
  rewrite (abs_normal x) by (trivial; lia).
  set (b := to_bits x) in *. cbv zeta.
  pose proof (Z.mod_pos_bound (bexp b - 127) 32 ltac:(lia)) as Kr.
  set (k := (bexp b - 127) mod 32) in *. pose proof (bman_range b) as Hm.
  rewrite Rmult_assoc, <- bpow_plus.
  replace (bexp b - 150 + - (bexp b - 127 - k)) with (k - 23) by ring.
  destruct (k <? 23) eqn:K; [apply Z.ltb_lt in K|apply Z.ltb_ge in K].
  - replace (k - 23) with (- (23 - k)) by lia.
    rewrite (bpow_opp radix2 (23 - k)), (bpow_Z (23 - k)) by lia.
    change (IZR (2 ^ 23 + bman b) * / IZR (2 ^ (23 - k)))%R
      with (IZR (2 ^ 23 + bman b) / IZR (2 ^ (23 - k)))%R.
    rewrite Zfloor_div by lia.
    assert (IZR (2 ^ (23 - k)) <> 0)%R by (apply IZR_neq; lia).
    rewrite mult_IZR, <- (bpow_Z k), Rmult_assoc, <- bpow_plus by lia.
    replace (k + -23) with (- (23 - k)) by ring. rewrite (bpow_opp radix2 (23 - k)), (bpow_Z (23 - k)) by lia.
    apply Rmult_eq_reg_r with (IZR (2 ^ (23 - k))); [|assumption].
    rewrite Rmult_assoc, Rinv_l, Rmult_1_r by assumption.
    unfold Rdiv. rewrite Rmult_minus_distr_r, Rmult_assoc, Rinv_l, Rmult_1_r by assumption.
    rewrite <- mult_IZR, <- minus_IZR. f_equal.
    replace (2 ^ 23) with (2 ^ k * 2 ^ (23 - k))
      by (rewrite <- Z.pow_add_r by lia; f_equal; lia).
    rewrite Z.div_add_l by lia.
    pose proof (Z.div_mod (bman b) (2 ^ (23 - k)) ltac:(lia)). lia.
  - rewrite (bpow_Z (k - 23)) by lia. rewrite <- mult_IZR, Zfloor_IZR. ring.
Qed.

Lemma fract_general : forall {E : Env} x, fin x -> (1 <= Rabs (val x))%R ->
  exists z, F32_fract x = Ok z /\ fin z /\ sign_bit z = sign_bit x /\
  let y := (Rabs (val x) * bpow radix2 (- cut x))%R in
  val z = (sgn x * (y - IZR (Zfloor y)))%R.
Proof.
  intros E x Hx H1.
  pose proof (bexp_ge x 0 Hx ltac:(lia) H1) as L. simpl in L.
  destruct (fract_bits x L) as (z & A & B & C & D). exists z.
  repeat split; try assumption. cbv zeta. rewrite D. f_equal. apply fp_value; assumption.
Qed.

Lemma fract_exact : forall {E : Env} x, fin x -> (Rabs (val x) < bpow radix2 32)%R ->
  exists z, F32_fract x = Ok z /\ fin z /\ sign_bit z = sign_bit x /\
    val z = (val x - IZR (Ztrunc (val x)))%R /\ (Rabs (val z) < 1)%R /\
    fadd (F32_trunc x) z = x.
Proof.
  intros E x Hx Hb.
  destruct (trunc_exact x Hx Hb) as (TF & TV & TS).
  assert (P : exists z, F32_fract x = Ok z /\ fin z /\ sign_bit z = sign_bit x /\
    val z = (val x - IZR (Ztrunc (val x)))%R /\ (Rabs (val z) < 1)%R).
  { destruct (Rle_or_lt 1 (Rabs (val x))) as [L|L].
    - destruct (fract_general x Hx L) as (z & A & B & C & D).
      rewrite (cut_small x Hx (conj L Hb)) in D. simpl in D. rewrite Rmult_1_r in D.
      exists z. repeat split; try assumption.
      + rewrite D. rewrite Ztrunc_val. rewrite (val_signed x) at 3.
        fold (sgn x). ring.
      + rewrite D, sgn_abs. pose proof (Zfloor_lb (Rabs (val x))).
        pose proof (Zfloor_ub (Rabs (val x))). apply Rabs_lt. lra.
    - pose proof (bexp_lt x 0 Hx ltac:(lia) L) as U.
      exists x. rewrite fract_small by assumption. repeat split; trivial.
      assert (T : Ztrunc (val x) = 0).
      { apply Rabs_lt_inv in L. destruct (Rle_or_lt 0 (val x)).
        - rewrite Ztrunc_floor by assumption. apply Zfloor_imp. simpl. lra.
        - rewrite Ztrunc_ceil by lra. apply Zceil_imp. simpl. lra. }
      rewrite T. ring. }
  destruct P as (z & A & B & C & D & F). exists z. repeat split; try assumption.
  assert (S : (val (F32_trunc x) + val z = val x)%R) by (rewrite TV, D; ring).
  assert (R : rnd (val (F32_trunc x) + val z) = val x) by (rewrite S; apply rnd_fmt, fmt_val).
  assert (Bd : (Rabs (rnd (val (F32_trunc x) + val z)) < bpow radix2 128)%R).
  { rewrite R. apply Rlt_le_trans with (1 := Hb). apply bpow_le. lia. }
  destruct (fadd_R (F32_trunc x) z TF B Bd) as [GF GV]. rewrite R in GV.
  destruct (Req_dec (val x) 0) as [Z0|NZ].
  - assert (Q : forall w, fin w -> val w = 0%R -> w = f32_zero (sign_bit w)).
    { intros w Hw Vw. apply fin_dec_eq.
      - assumption.
      - reflexivity.
      - rewrite Vw. reflexivity.
      - reflexivity. }
    assert (T0 : Ztrunc 0 = 0%Z) by apply (Ztrunc_IZR 0).
    assert (Xz := Q x Hx Z0).
    assert (Tz := Q (F32_trunc x) TF ltac:(rewrite TV, Z0, T0; reflexivity)).
    assert (Fz := Q z B ltac:(rewrite D, Z0, T0; ring)).
    rewrite TS in Tz. rewrite C in Fz. rewrite Tz, Fz. rewrite Xz at 3.
    destruct (sign_bit x); reflexivity.
  - apply val_inj_nz; trivial. rewrite GV. assumption.
Qed.
