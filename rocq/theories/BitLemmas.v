(** * Bit-level identities used by the proofs *)

From Coq Require Import ZArith Reals Bool List Lia Lra.
From Flocq Require Import Core IEEE754.BinarySingleNaN IEEE754.Binary IEEE754.Bits.
From Verif Require Import Base Spec Float F32Lemmas.
Open Scope Z_scope.

Lemma land_shift : forall b m k, 0 <= k -> Z.land b (m * 2 ^ k) = Z.land (b / 2 ^ k) m * 2 ^ k.
Proof.
  intros b m k Hk. apply Z.bits_inj'. intros n Hn.
  rewrite Z.land_spec.
  destruct (Z.lt_ge_cases n k) as [L|L].
  - rewrite 2!Z.mul_pow2_bits_low by assumption. apply andb_false_r.
  - rewrite 2!Z.mul_pow2_bits by assumption. rewrite Z.land_spec.
    rewrite Z.div_pow2_bits by lia. replace (n - k + k) with n by ring. reflexivity.
Qed.

Lemma lor_shift : forall a h k, 0 <= k -> 0 <= a < 2 ^ k -> Z.lor a (h * 2 ^ k) = a + h * 2 ^ k.
Proof.
  intros a h k Hk Ha.
  assert (D : Z.land a (h * 2 ^ k) = 0).
  { rewrite land_shift by assumption. rewrite Z.div_small by assumption.
    rewrite Z.land_0_l. reflexivity. }
  rewrite Z.add_nocarry_lxor by assumption. rewrite Z.lxor_lor by assumption. reflexivity.
Qed.

Lemma land_not_sign : forall b, 0 <= b < 2 ^ 32 ->
  Z.land b (not32 SIGN_MASK) = b - bsign b * 2 ^ 31.
Proof.
  intros b Hb. change (not32 SIGN_MASK) with (Z.ones 31). rewrite Z.land_ones by lia.
  unfold bsign. rewrite Z.mod_eq by lia. ring.
Qed.

Lemma land_sign : forall b, 0 <= b < 2 ^ 32 -> Z.land b SIGN_MASK = bsign b * 2 ^ 31.
Proof.
  intros b Hb. change SIGN_MASK with (1 * 2 ^ 31). rewrite land_shift by lia.
  change 1 with (Z.ones 1) at 1. rewrite Z.land_ones by lia.
  fold (bsign b). rewrite Z.mod_small; [reflexivity|].
  destruct (bits_split b Hb) as [_ [H|H]]; rewrite H; lia.
Qed.

Lemma land_mant : forall b, Z.land b MANTISSA_MASK = bman b.
Proof. intros b. change MANTISSA_MASK with (Z.ones 23). rewrite Z.land_ones by lia. reflexivity. Qed.

Lemma land_expmask : forall b, 0 <= b < 2 ^ 32 -> Z.land b EXPONENT_MASK = bexp b * 2 ^ 23.
Proof.
  intros b Hb. change EXPONENT_MASK with (Z.ones 8 * 2 ^ 23). rewrite land_shift by lia.
  rewrite Z.land_ones by lia. reflexivity.
Qed.

Lemma extract_exponent_bits_eq : forall x, extract_exponent_bits x = bexp (to_bits x).
Proof.
  intros x. unfold extract_exponent_bits, shr32.
  rewrite land_expmask by apply to_bits_range.
  change (MANTISSA_BITS mod 32) with 23. rewrite Z.shiftr_div_pow2 by lia.
  apply Z.div_mul. discriminate.
Qed.

Lemma extract_exponent_value_eq : forall x, extract_exponent_value x = bexp (to_bits x) - 127.
Proof. intros x. unfold extract_exponent_value. rewrite extract_exponent_bits_eq. reflexivity. Qed.

(** Patterns assembled from fields. *)
Definition mkbits (s e m : Z) : Z := s * 2 ^ 31 + e * 2 ^ 23 + m.

Lemma mkbits_fields : forall s e m, 0 <= s <= 1 -> 0 <= e < 256 -> 0 <= m < 2 ^ 23 ->
  0 <= mkbits s e m < 2 ^ 32 /\
  bsign (mkbits s e m) = s /\ bexp (mkbits s e m) = e /\ bman (mkbits s e m) = m.
Proof.
  intros s e m Hs He Hm.
  assert (R : 0 <= mkbits s e m < 2 ^ 32) by (unfold mkbits; lia).
  split; [assumption|].
  pose proof (bits_split _ R) as [S1 S2].
  pose proof (bman_range (mkbits s e m)). pose proof (bexp_range (mkbits s e m)).
  unfold mkbits in S1 at 1. lia.
Qed.

Lemma mkbits_eq : forall b, 0 <= b < 2 ^ 32 -> b = mkbits (bsign b) (bexp b) (bman b).
Proof. intros b Hb. apply bits_split. assumption. Qed.

Lemma bsign_range : forall b, 0 <= b < 2 ^ 32 -> 0 <= bsign b <= 1.
Proof. intros b Hb. destruct (bits_split b Hb) as [_ [H|H]]; lia. Qed.

(** ** abs, copysign *)

Lemma to_bits_abs : forall x, to_bits (F32_abs x) = mkbits 0 (bexp (to_bits x)) (bman (to_bits x)).
Proof.
  intros x. unfold F32_abs. pose proof (to_bits_range x) as R.
  rewrite land_not_sign by assumption.
  pose proof (bman_range (to_bits x)). pose proof (bexp_range (to_bits x)).
  destruct (bits_split _ R) as [S _].
  rewrite to_from_bits; unfold mkbits; lia.
Qed.

Lemma to_bits_copysign : forall x s,
  to_bits (F32_copysign x s) = mkbits (bsign (to_bits s)) (bexp (to_bits x)) (bman (to_bits x)).
Proof.
  intros x s. unfold F32_copysign. cbv zeta.
  pose proof (to_bits_range x) as Rx. pose proof (to_bits_range s) as Rs.
  rewrite land_not_sign, land_sign by assumption.
  pose proof (bman_range (to_bits x)). pose proof (bexp_range (to_bits x)).
  destruct (bits_split _ Rx) as [S _]. pose proof (bsign_range _ Rs).
  rewrite lor_shift by lia.
  rewrite to_from_bits; unfold mkbits; lia.
Qed.

(** Equality from fields. *)
Lemma fields_inj : forall x y,
  bsign (to_bits x) = bsign (to_bits y) -> bexp (to_bits x) = bexp (to_bits y) ->
  bman (to_bits x) = bman (to_bits y) -> x = y.
Proof.
  intros x y A B C. apply to_bits_inj.
  rewrite (mkbits_eq (to_bits x)), (mkbits_eq (to_bits y)) by apply to_bits_range.
  congruence.
Qed.

(** Field access after [to_bits_*] rewriting. *)
Lemma abs_fields : forall x,
  bsign (to_bits (F32_abs x)) = 0 /\ bexp (to_bits (F32_abs x)) = bexp (to_bits x) /\
  bman (to_bits (F32_abs x)) = bman (to_bits x).
Proof.
  intros x. rewrite to_bits_abs.
  pose proof (bman_range (to_bits x)). pose proof (bexp_range (to_bits x)).
  apply mkbits_fields; lia.
Qed.

Lemma copysign_fields : forall x s,
  bsign (to_bits (F32_copysign x s)) = bsign (to_bits s) /\
  bexp (to_bits (F32_copysign x s)) = bexp (to_bits x) /\
  bman (to_bits (F32_copysign x s)) = bman (to_bits x).
Proof.
  intros x s. rewrite to_bits_copysign.
  pose proof (bman_range (to_bits x)). pose proof (bexp_range (to_bits x)).
  pose proof (bsign_range _ (to_bits_range s)).
  apply mkbits_fields; lia.
Qed.

(** Constructor-level description of [abs] and [copysign]. *)
Definition with_sign (s : bool) (x : f32) : f32 :=
  match x with
  | B754_nan _ pl H => B754_nan s pl H
  | B754_infinity _ => B754_infinity s
  | B754_zero _ => B754_zero s
  | B754_finite _ m e H => B754_finite s m e H
  end.

Lemma with_sign_fields : forall s x,
  bsign (to_bits (with_sign s x)) = (if s then 1 else 0) /\
  bexp (to_bits (with_sign s x)) = bexp (to_bits x) /\
  bman (to_bits (with_sign s x)) = bman (to_bits x).
Proof.
  intros s x. pose proof (fields x) as [_ F]. pose proof (fields (with_sign s x)) as [G0 G].
  destruct x as [s0|s0|s0 pl H|s0 m e H]; simpl with_sign in *; cbv beta iota in F, G;
    (split; [rewrite G0; destruct s; reflexivity|]); try lia.
Qed.

Lemma abs_with_sign : forall x, F32_abs x = with_sign false x.
Proof.
  intros x. destruct (abs_fields x) as (A & B & C).
  destruct (with_sign_fields false x) as (A' & B' & C').
  apply fields_inj; congruence.
Qed.

Lemma copysign_with_sign : forall x s, F32_copysign x s = with_sign (sign_bit s) x.
Proof.
  intros x s. destruct (copysign_fields x s) as (A & B & C).
  destruct (with_sign_fields (sign_bit s) x) as (A' & B' & C').
  destruct (fields s) as [F _].
  apply fields_inj; congruence.
Qed.

Lemma with_sign_val : forall s x, val (with_sign s x) = ((if s then -1 else 1) * Rabs (val x))%R.
Proof.
  intros s x. destruct x as [s0|s0|s0 pl H|s0 m e H]; unfold val; simpl B2R;
    try (rewrite Rabs_R0; ring).
  unfold F2R. cbv beta iota delta [Fnum Fexp].
  rewrite Rabs_mult, (Rabs_pos_eq (bpow _ _)) by apply bpow_ge_0.
  rewrite <- abs_IZR.
  replace (Z.abs (cond_Zopp s0 (Zpos m))) with (Zpos m) by (destruct s0; reflexivity).
  destruct s; unfold cond_Zopp; rewrite ?opp_IZR; ring.
Qed.

Lemma abs_val : forall x, val (F32_abs x) = Rabs (val x).
Proof. intros x. rewrite abs_with_sign, with_sign_val. ring. Qed.
Lemma abs_fin : forall x, is_finite (F32_abs x) = is_finite x.
Proof. intros x. rewrite abs_with_sign. destruct x; reflexivity. Qed.
Lemma abs_is_nan : forall x, is_nan (F32_abs x) = is_nan x.
Proof. intros x. rewrite abs_with_sign. destruct x; reflexivity. Qed.
Lemma abs_sign : forall x, sign_bit (F32_abs x) = false.
Proof. intros x. rewrite abs_with_sign. destruct x; reflexivity. Qed.

(** Sign bit and sign of the value. *)
Lemma sign_val_pos : forall x, sign_bit x = false -> (0 <= val x)%R.
Proof.
  intros x H. destruct x as [s|s|s pl Hp|s m e Hb]; unfold val; simpl B2R; try lra.
  unfold sign_bit in H. simpl in H. subst s. apply F2R_ge_0. simpl. lia.
Qed.
Lemma sign_val_neg : forall x, sign_bit x = true -> (val x <= 0)%R.
Proof.
  intros x H. destruct x as [s|s|s pl Hp|s m e Hb]; unfold val; simpl B2R; try lra.
  unfold sign_bit in H. simpl in H. subst s. apply F2R_le_0. simpl. lia.
Qed.

Lemma val_signed : forall x, val x = ((if sign_bit x then -1 else 1) * Rabs (val x))%R.
Proof.
  intros x. destruct (sign_bit x) eqn:S.
  - rewrite Rabs_left1 by (apply sign_val_neg; assumption). ring.
  - rewrite Rabs_pos_eq by (apply sign_val_pos; assumption). ring.
Qed.

Lemma fin_dec_eq : forall x y, fin x -> fin y -> val x = val y -> sign_bit x = sign_bit y -> x = y.
Proof. intros x y Hx Hy V S. apply (B2R_Bsign_inj 24 128); assumption. Qed.

(** ** Constants *)
Lemma const_val : forall b, 0 <= b < 2 ^ 32 -> bexp b < 255 ->
  val (from_bits b) = bval b.
Proof. intros. apply val_from_bits; assumption. Qed.

Lemma bval_pos : forall b E M, bsign b = 0 -> bexp b = E -> bman b = M -> E <> 0 ->
  bval b = (IZR (2 ^ 23 + M) * bpow radix2 (E - 150))%R.
Proof.
  intros b E M S HE HM HE0. unfold bval. rewrite S, HE, HM.
  simpl (0 =? 0). replace (E =? 0) with false by (symmetry; apply Z.eqb_neq; assumption).
  ring.
Qed.

(** ** Value and exponent field *)

Lemma val_normal : forall x, fin x -> bexp (to_bits x) <> 0 ->
  val x = (sgn x * (IZR (2 ^ 23 + bman (to_bits x)) * bpow radix2 (bexp (to_bits x) - 150)))%R.
Proof.
  intros x Hx He. rewrite val_bits by assumption. unfold bval, sgn.
  destruct (fields x) as [F _]. rewrite F.
  replace (bexp (to_bits x) =? 0) with false by (symmetry; apply Z.eqb_neq; assumption).
  destruct (sign_bit x); reflexivity.
Qed.

Lemma val_subnormal : forall x, fin x -> bexp (to_bits x) = 0 ->
  val x = (sgn x * (IZR (bman (to_bits x)) * bpow radix2 (-149)))%R.
Proof.
  intros x Hx He. rewrite val_bits by assumption. unfold bval, sgn.
  destruct (fields x) as [F _]. rewrite F, He.
  destruct (sign_bit x); reflexivity.
Qed.

Lemma sgn_abs : forall x r, Rabs (sgn x * r) = Rabs r.
Proof.
  intros x r. rewrite Rabs_mult. unfold sgn. destruct (sign_bit x).
  - rewrite Rabs_left by lra. ring.
  - rewrite Rabs_R1. ring.
Qed.

Lemma abs_normal : forall x, fin x -> bexp (to_bits x) <> 0 ->
  Rabs (val x) = (IZR (2 ^ 23 + bman (to_bits x)) * bpow radix2 (bexp (to_bits x) - 150))%R.
Proof.
  intros x Hx He. rewrite val_normal, sgn_abs by assumption.
  apply Rabs_pos_eq. apply Rmult_le_pos; [|apply bpow_ge_0].
  apply IZR_le. pose proof (bman_range (to_bits x)). lia.
Qed.

Lemma abs_normal_bounds : forall x, fin x -> bexp (to_bits x) <> 0 ->
  (bpow radix2 (bexp (to_bits x) - 127) <= Rabs (val x) < bpow radix2 (bexp (to_bits x) - 126))%R.
Proof.
  intros x Hx He. rewrite abs_normal by assumption.
  pose proof (bman_range (to_bits x)) as Hm. set (E := bexp (to_bits x)) in *.
  replace (E - 127) with (23 + (E - 150)) by ring. replace (E - 126) with (24 + (E - 150)) by ring.
  rewrite 2!bpow_plus. pose proof (bpow_gt_0 radix2 (E - 150)).
  change (bpow radix2 23) with (IZR (2 ^ 23)). change (bpow radix2 24) with (IZR (2 ^ 24)).
  split; [apply Rmult_le_compat_r|apply Rmult_lt_compat_r]; try lra;
    [apply IZR_le|apply IZR_lt]; lia.
Qed.

Lemma abs_subnormal_bounds : forall x, fin x -> bexp (to_bits x) = 0 ->
  (0 <= Rabs (val x) < bpow radix2 (-126))%R.
Proof.
  intros x Hx He. split; [apply Rabs_pos|]. rewrite val_subnormal, sgn_abs by assumption.
  pose proof (bman_range (to_bits x)) as Hm.
  rewrite Rabs_mult, (Rabs_pos_eq (bpow _ _)) by apply bpow_ge_0.
  rewrite Rabs_pos_eq by (apply IZR_le; lia).
  change (-126) with (23 + -149). rewrite bpow_plus.
  apply Rmult_lt_compat_r; [apply bpow_gt_0|].
  change (bpow radix2 23) with (IZR (2 ^ 23)). apply IZR_lt. lia.
Qed.

(** Exponent field from magnitude. *)
Lemma bexp_lt : forall x k, fin x -> -126 <= k -> (Rabs (val x) < bpow radix2 k)%R ->
  bexp (to_bits x) < k + 127.
Proof.
  intros x k Hx Hk H. destruct (Z.eq_dec (bexp (to_bits x)) 0) as [E|E]; [lia|].
  destruct (abs_normal_bounds x Hx E) as [L _].
  assert (bexp (to_bits x) - 127 < k); [|lia].
  apply (lt_bpow radix2). lra.
Qed.

Lemma bexp_ge : forall x k, fin x -> -126 <= k -> (bpow radix2 k <= Rabs (val x))%R ->
  k + 127 <= bexp (to_bits x).
Proof.
  intros x k Hx Hk H. destruct (Z.eq_dec (bexp (to_bits x)) 0) as [E|E].
  - destruct (abs_subnormal_bounds x Hx E) as [_ L].
    assert (k < -126); [|lia]. apply (lt_bpow radix2). lra.
  - destruct (abs_normal_bounds x Hx E) as [_ L].
    assert (k < bexp (to_bits x) - 126); [|lia]. apply (lt_bpow radix2). lra.
Qed.

Lemma abs_lt_bpow : forall x k, fin x -> -126 <= k -> bexp (to_bits x) < k + 127 ->
  (Rabs (val x) < bpow radix2 k)%R.
Proof.
  intros x k Hx Hk H. apply Rnot_le_lt. intros C.
  pose proof (bexp_ge x k Hx Hk C). lia.
Qed.

Lemma abs_ge_bpow : forall x k, fin x -> -126 <= k -> k + 127 <= bexp (to_bits x) ->
  (bpow radix2 k <= Rabs (val x))%R.
Proof.
  intros x k Hx Hk H. apply Rnot_lt_le. intros C.
  pose proof (bexp_lt x k Hx Hk C). lia.
Qed.

Lemma fin_bexp_lt : forall x, fin x <-> bexp (to_bits x) < 255.
Proof. intros x. unfold fin. rewrite fin_bexp. apply Z.ltb_lt. Qed.

Lemma bpow_Z : forall k, 0 <= k -> bpow radix2 k = IZR (2 ^ k).
Proof. intros k Hk. rewrite <- (IZR_Zpower radix2) by assumption. reflexivity. Qed.

Lemma sgn_val : forall x, (sgn x = 1 \/ sgn x = -1)%R.
Proof. intros x. unfold sgn. destruct (sign_bit x); lra. Qed.

Lemma mod_pow_mod : forall a i j, 0 <= j <= i -> (a mod 2 ^ i) mod 2 ^ j = a mod 2 ^ j.
Proof.
  intros a i j H. symmetry. apply Znumtheory.Zmod_div_mod; try lia.
  exists (2 ^ (i - j)). rewrite <- Z.pow_add_r by lia. f_equal. lia.
Qed.

Lemma val_inj_nz : forall x y, fin x -> fin y -> val x = val y -> val x <> 0%R -> x = y.
Proof.
  intros x y Hx Hy V N. apply fin_dec_eq; trivial.
  assert (N' : val y <> 0%R) by (rewrite <- V; assumption).
  assert (P : forall z, val z <> 0%R -> sign_bit z = Rlt_bool (val z) 0).
  { intros z Hz. destruct (sign_bit z) eqn:S.
    - pose proof (sign_val_neg z S). rewrite Rlt_bool_true; [reflexivity|lra].
    - pose proof (sign_val_pos z S). rewrite Rlt_bool_false; [reflexivity|lra]. }
  rewrite (P x N), (P y N'), V. reflexivity.
Qed.

(** Keep [simpl] from unfolding the model. *)
#[global] Arguments SIGN_MASK : simpl never.
#[global] Arguments EXPONENT_MASK : simpl never.
#[global] Arguments MANTISSA_MASK : simpl never.
#[global] Arguments EXPONENT_BIAS : simpl never.
#[global] Arguments MANTISSA_BITS : simpl never.
#[global] Arguments F32_ZERO : simpl never.
#[global] Arguments F32_ONE : simpl never.
#[global] Arguments F32_EPSILON : simpl never.
#[global] Arguments F32_INFINITY : simpl never.
#[global] Arguments F32_NEG_INFINITY : simpl never.
#[global] Arguments c_0_25 : simpl never.
#[global] Arguments c_0_5 : simpl never.
#[global] Arguments c_2 : simpl never.
#[global] Arguments c_4 : simpl never.
#[global] Arguments c_8 : simpl never.
#[global] Arguments c_16 : simpl never.
#[global] Arguments c_28 : simpl never.
#[global] Arguments c_56 : simpl never.
#[global] Arguments c_70 : simpl never.
#[global] Arguments c_0_225 : simpl never.
#[global] Arguments c_PI : simpl never.
#[global] Arguments c_FRAC_PI_2 : simpl never.
#[global] Arguments c_FRAC_1_PI : simpl never.
#[global] Arguments c_LOG2_E : simpl never.
#[global] Arguments c_LOG10_E : simpl never.
#[global] Arguments c_LN_2 : simpl never.
#[global] Arguments c_E : simpl never.
#[global] Arguments c_B : simpl never.
#[global] Arguments c_1_7417939 : simpl never.
#[global] Arguments c_2_8212026 : simpl never.
#[global] Arguments c_1_4699568 : simpl never.
#[global] Arguments c_0_44717955 : simpl never.
#[global] Arguments c_0_056570851 : simpl never.
#[global] Arguments extract_exponent_bits : simpl never.
#[global] Arguments extract_exponent_value : simpl never.
#[global] Arguments without_sign : simpl never.
#[global] Arguments set_exponent : simpl never.
#[global] Arguments is_integer : simpl never.
#[global] Arguments is_even : simpl never.
#[global] Arguments F32_product : simpl never.
#[global] Arguments F32_sum : simpl never.
#[global] Arguments F32_from_int : simpl never.
#[global] Arguments F32_abs : simpl never.
#[global] Arguments F32_copysign : simpl never.
#[global] Arguments F32_signum : simpl never.
#[global] Arguments F32_trunc : simpl never.
#[global] Arguments F32_fract : simpl never.
#[global] Arguments F32_floor : simpl never.
#[global] Arguments F32_ceil : simpl never.
#[global] Arguments F32_round : simpl never.
#[global] Arguments F32_rem_euclid : simpl never.
#[global] Arguments F32_div_euclid : simpl never.
#[global] Arguments F32_sqrt : simpl never.
#[global] Arguments F32_invsqrt : simpl never.
#[global] Arguments F32_inv : simpl never.
#[global] Arguments F32_recip : simpl never.
#[global] Arguments F32_hypot : simpl never.
#[global] Arguments F32_mul_add : simpl never.
#[global] Arguments F32_cos : simpl never.
#[global] Arguments F32_sin : simpl never.
#[global] Arguments F32_sin_cos : simpl never.
#[global] Arguments F32_tan : simpl never.
#[global] Arguments F32_atan_norm : simpl never.
#[global] Arguments F32_atan : simpl never.
#[global] Arguments F32_atan2_norm : simpl never.
#[global] Arguments F32_atan2 : simpl never.
#[global] Arguments F32_asin : simpl never.
#[global] Arguments F32_acos : simpl never.
#[global] Arguments F32_exp_smallx : simpl never.
#[global] Arguments F32_exp_ln2_approx : simpl never.
#[global] Arguments F32_exp : simpl never.
#[global] Arguments F32_cosh : simpl never.
#[global] Arguments ln_1to2_polynomial : simpl never.
#[global] Arguments F32_ln : simpl never.
#[global] Arguments F32_log : simpl never.
#[global] Arguments F32_log2 : simpl never.
#[global] Arguments F32_log10 : simpl never.
#[global] Arguments F32_powf : simpl never.
#[global] Arguments powi_early : simpl never.
#[global] Arguments F32_powi : simpl never.
#[global] Arguments fadd : simpl never.
#[global] Arguments fsub : simpl never.
#[global] Arguments fmul : simpl never.
#[global] Arguments fdiv : simpl never.
#[global] Arguments frem : simpl never.
#[global] Arguments f32_of_Z : simpl never.
#[global] Arguments to_i32 : simpl never.
#[global] Arguments flt : simpl never.
#[global] Arguments fle : simpl never.
#[global] Arguments feq : simpl never.
#[global] Arguments fge : simpl never.
#[global] Arguments fgt : simpl never.
