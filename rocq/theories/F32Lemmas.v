(** * Facts about the f32 primitives *)

From Coq Require Import ZArith Reals Bool List Lia Lra Psatz.
From Flocq Require Import Core Relative IEEE754.BinarySingleNaN IEEE754.Binary IEEE754.Bits.
From Verif Require Import Base Spec.
Open Scope Z_scope.

(** ** Bit patterns *)

Lemma to_bits_range : forall x, 0 <= to_bits x < 2 ^ 32.
Proof. intros x. apply (bits_of_binary_float_range 23 8); reflexivity. Qed.

Lemma from_to_bits : forall x, from_bits (to_bits x) = x.
Proof. intros x. exact (binary_float_of_bits_of_binary_float 23 8 eq_refl eq_refl eq_refl x). Qed.

Lemma to_from_bits : forall b, 0 <= b < 2 ^ 32 -> to_bits (from_bits b) = b.
Proof. intros b H. exact (bits_of_binary_float_of_bits 23 8 eq_refl eq_refl eq_refl b H). Qed.

Lemma to_bits_inj : forall x y, to_bits x = to_bits y -> x = y.
Proof. intros x y H. rewrite <- (from_to_bits x), H. apply from_to_bits. Qed.

Lemma bounded_digits : forall m e, SpecFloat.bounded 24 128 m e = true ->
  -149 <= e <= 104 /\ Zpos m < 2 ^ 24 /\ (Zpos m < 2 ^ 23 -> e = -149).
Proof.
  intros m e H.
  unfold SpecFloat.bounded in H. apply andb_prop in H. destruct H as [H1 H2].
  unfold SpecFloat.canonical_mantissa in H1.
  apply Zeq_bool_eq in H1. apply Zle_bool_imp_le in H2.
  unfold SpecFloat.fexp, SpecFloat.emin in H1.
  rewrite Digits.Zpos_digits2_pos in H1.
  pose proof (Zdigits_correct radix2 (Zpos m)) as D.
  assert (Hd : 0 < Zdigits radix2 (Zpos m)) by (apply Zdigits_gt_0; discriminate).
  change (Zdigits radix2 (Zpos m)) with (Digits.Zdigits radix2 (Zpos m)) in *.
  set (d := Digits.Zdigits radix2 (Zpos m)) in *.
  rewrite Z.abs_eq in D by lia.
  assert (d <= 24) by lia.
  assert (Zpos m < 2 ^ 24).
  { apply Z.lt_le_trans with (1 := proj2 D).
    change (2 ^ d <= 2 ^ 24). apply Z.pow_le_mono_r; lia. }
  repeat split; try lia.
  intros Hm.
  assert (d <= 23).
  { destruct (Z_le_gt_dec d 23); [assumption|].
    assert (2 ^ 23 <= 2 ^ (d - 1)) by (apply Z.pow_le_mono_r; lia).
    change (2 ^ 23 <= Zpower radix2 (d - 1)) in H3. lia. }
  lia.
Qed.

(** The fields of the pattern of each kind of float. *)
Lemma fields_join : forall (s : bool) m e, 0 <= m < 2 ^ 23 -> 0 <= e < 256 ->
  let b := join_bits 23 8 s m e in
  bsign b = (if s then 1 else 0) /\ bexp b = e /\ bman b = m.
Proof.
  intros s m e Hm He. cbv zeta. unfold join_bits, bsign, bexp, bman.
  rewrite Z.shiftl_mul_pow2 by lia.
  change (2 ^ 8) with 256. change (2 ^ 23) with 8388608 in *.
  change (2 ^ 31) with (8388608 * 256).
  rewrite <- Z.div_div by lia.
  rewrite Z.div_add_l by lia. rewrite (Z.div_small m) by lia. rewrite Z.add_0_r.
  repeat split.
  - destruct s.
    + replace (256 + e) with (1 * 256 + e) by lia. rewrite Z.div_add_l by lia.
      rewrite Z.div_small; lia.
    + rewrite Z.div_small; lia.
  - destruct s.
    + replace (256 + e) with (e + 1 * 256) by lia. rewrite Z_mod_plus_full.
      apply Z.mod_small; lia.
    + apply Z.mod_small; lia.
  - rewrite Z.add_comm, Z_mod_plus_full. apply Z.mod_small; lia.
Qed.

Lemma fields : forall x,
  bsign (to_bits x) = (if sign_bit x then 1 else 0) /\
  match x with
  | B754_zero _ => bexp (to_bits x) = 0 /\ bman (to_bits x) = 0
  | B754_infinity _ => bexp (to_bits x) = 255 /\ bman (to_bits x) = 0
  | B754_nan _ pl _ => bexp (to_bits x) = 255 /\ bman (to_bits x) = Zpos pl /\ 0 < Zpos pl
  | B754_finite _ m e _ =>
      (2 ^ 23 <= Zpos m /\ bexp (to_bits x) = e + 150 /\ bman (to_bits x) = Zpos m - 2 ^ 23
         /\ 1 <= e + 150 <= 254)
      \/ (Zpos m < 2 ^ 23 /\ e = -149 /\ bexp (to_bits x) = 0 /\ bman (to_bits x) = Zpos m)
  end.
Proof.
  intros x. destruct x as [s|s|s pl Hpl|s m e H].
  - destruct (fields_join s 0 0) as (A & B & C); try lia.
    split; [exact A|split; assumption].
  - destruct (fields_join s 0 255) as (A & B & C); try lia.
    split; [exact A|split; assumption].
  - assert (Hp : Zpos pl < 2 ^ 23).
    { unfold nan_pl in Hpl. apply Z.ltb_lt in Hpl. rewrite Digits.Zpos_digits2_pos in Hpl.
      pose proof (Zdigits_correct radix2 (Zpos pl)) as [_ D].
      rewrite Z.abs_eq in D by lia.
      apply Z.lt_le_trans with (1 := D).
      change (2 ^ Digits.Zdigits radix2 (Zpos pl) <= 2 ^ 23).
      apply Z.pow_le_mono_r; lia. }
    destruct (fields_join s (Zpos pl) 255) as (A & B & C); try lia.
    split; [exact A|repeat split; try assumption; lia].
  - destruct (bounded_digits m e H) as (H1 & H2 & H3).
    assert (J : to_bits (B754_finite s m e H) =
      if 0 <=? Zpos m - 2 ^ 23 then join_bits 23 8 s (Zpos m - 2 ^ 23) (e - -149 + 1)
      else join_bits 23 8 s (Zpos m) 0) by reflexivity.
    rewrite J. change (sign_bit (B754_finite s m e H)) with s.
    destruct (0 <=? Zpos m - 2 ^ 23) eqn:HM.
    + apply Z.leb_le in HM.
      destruct (fields_join s (Zpos m - 2 ^ 23) (e - -149 + 1)) as (A & B & C); [lia|lia|].
      split; [exact A|]. left. rewrite B, C. lia.
    + apply Z.leb_gt in HM.
      destruct (fields_join s (Zpos m) 0) as (A & B & C); [lia|lia|].
      split; [exact A|]. right. rewrite B, C. lia.
Qed.

Lemma bman_range : forall b, 0 <= bman b < 2 ^ 23.
Proof. intros b. apply Z.mod_pos_bound. reflexivity. Qed.
Lemma bexp_range : forall b, 0 <= bexp b < 256.
Proof. intros b. apply Z.mod_pos_bound. reflexivity. Qed.

Lemma bits_split : forall b, 0 <= b < 2 ^ 32 ->
  b = bsign b * 2 ^ 31 + bexp b * 2 ^ 23 + bman b /\ (bsign b = 0 \/ bsign b = 1).
Proof.
  intros b Hb. unfold bsign, bexp, bman.
  change (2 ^ 31) with (8388608 * 256). change (2 ^ 23) with 8388608.
  change (2 ^ 32) with 4294967296 in Hb.
  rewrite <- Z.div_div by lia.
  pose proof (Z.div_mod b 8388608). pose proof (Z.div_mod (b / 8388608) 256).
  assert (0 <= b / 8388608 < 512) by (split; [apply Z.div_pos|apply Z.div_lt_upper_bound]; lia).
  assert (0 <= b / 8388608 / 256 < 2) by (split; [apply Z.div_pos|apply Z.div_lt_upper_bound]; lia).
  lia.
Qed.

(** Classification by fields. *)
Lemma fin_bexp : forall x, is_finite x = (bexp (to_bits x) <? 255).
Proof.
  intros x. pose proof (fields x) as [_ F].
  destruct x as [s|s|s pl Hpl|s m e H]; cbv beta iota in F.
  - destruct F as [F _]. rewrite F. reflexivity.
  - destruct F as [F _]. rewrite F. reflexivity.
  - destruct F as [F _]. rewrite F. reflexivity.
  - symmetry. unfold is_finite; simpl. apply Z.ltb_lt. lia.
Qed.

Lemma nan_fields : forall x,
  is_nan x = (bexp (to_bits x) =? 255) && negb (bman (to_bits x) =? 0).
Proof.
  intros x. pose proof (fields x) as [_ F].
  destruct x as [s|s|s pl Hpl|s m e H]; cbv beta iota in F.
  - destruct F as [F F']. rewrite F. reflexivity.
  - destruct F as [F F']. rewrite F, F'. reflexivity.
  - destruct F as [F [F' F'']]. rewrite F, F'. reflexivity.
  - unfold is_nan; simpl. replace (bexp (to_bits (B754_finite s m e H)) =? 255) with false;
      [reflexivity|]. symmetry. apply Z.eqb_neq. lia.
Qed.

Lemma inf_fields : forall x,
  is_infinite x = (bexp (to_bits x) =? 255) && (bman (to_bits x) =? 0).
Proof.
  intros x. pose proof (fields x) as [_ F].
  destruct x as [s|s|s pl Hpl|s m e H]; cbv beta iota in F.
  - destruct F as [F F']. rewrite F. reflexivity.
  - destruct F as [F F']. rewrite F, F'. reflexivity.
  - destruct F as [F [F' F'']]. rewrite F, F'. reflexivity.
  - unfold is_infinite. replace (bexp (to_bits (B754_finite s m e H)) =? 255) with false;
      [reflexivity|]. symmetry. apply Z.eqb_neq. lia.
Qed.

Lemma sign_bit_bsign : forall x, sign_bit x = (bsign (to_bits x) =? 1).
Proof.
  intros x. destruct (fields x) as [F _]. rewrite F. destruct (sign_bit x); reflexivity.
Qed.

Lemma sign_bit_ge : forall x, sign_bit x = (2 ^ 31 <=? to_bits x).
Proof.
  intros x. rewrite sign_bit_bsign.
  pose proof (bits_split _ (to_bits_range x)) as [H1 H2].
  pose proof (bman_range (to_bits x)). pose proof (bexp_range (to_bits x)).
  destruct H2 as [H2|H2]; rewrite H2 in *; simpl (_ =? 1); symmetry.
  - apply Z.leb_gt. lia.
  - apply Z.leb_le. lia.
Qed.

(** The value of a float is the decoding of its pattern. *)
Lemma val_bits : forall x, fin x -> val x = bval (to_bits x).
Proof.
  intros x Hx. destruct (fields x) as [Fs F]. unfold bval. rewrite Fs.
  destruct x as [s|s|s pl Hpl|s m e H]; try discriminate Hx; cbv beta iota in F.
  - destruct F as [F1 F2]. rewrite F1, F2. simpl. destruct s; simpl; ring.
  - unfold val, B2R, F2R. cbv beta iota delta [Fnum Fexp].
    change (sign_bit (B754_finite s m e H)) with s.
    destruct F as [(A & B & C & D)|(A & B & C & D)]; rewrite ?C, ?D.
    + rewrite B.
      replace (e + 150 =? 0) with false by (symmetry; apply Z.eqb_neq; lia).
      replace (2 ^ 23 + (Zpos m - 2 ^ 23)) with (Zpos m) by ring.
      replace (e + 150 - 150) with e by ring.
      destruct s; unfold cond_Zopp; cbv beta iota delta [Z.eqb Pos.eqb];
        [rewrite opp_IZR|]; ring.
    + subst e.
      destruct s; unfold cond_Zopp; cbv beta iota delta [Z.eqb Pos.eqb];
        [rewrite opp_IZR|]; ring.
Qed.

Lemma val_from_bits : forall b, 0 <= b < 2 ^ 32 -> bexp b < 255 ->
  fin (from_bits b) /\ val (from_bits b) = bval b.
Proof.
  intros b Hb He.
  assert (F : fin (from_bits b)).
  { unfold fin. rewrite fin_bexp, to_from_bits by assumption. apply Z.ltb_lt. assumption. }
  split; [assumption|]. rewrite val_bits, to_from_bits; trivial.
Qed.

(** Non-negative patterns are ordered like their values. *)
Lemma bval_mono : forall a b, 0 <= a <= b -> b < 0x7F800000 -> (0 <= bval a <= bval b)%R.
Proof.
  assert (S : forall a b, 0 <= a -> b = a + 1 -> b < 0x7F800000 -> (bval a <= bval b)%R).
  { intros a b Ha Hab Hb.
    pose proof (bits_split a ltac:(lia)) as [A1 A2].
    pose proof (bits_split b ltac:(lia)) as [B1 B2].
    pose proof (bman_range a). pose proof (bexp_range a).
    pose proof (bman_range b). pose proof (bexp_range b).
    assert (bsign a = 0) by lia. assert (bsign b = 0) by lia.
    unfold bval. rewrite H3, H4. simpl (0 =? 0). cbv iota. rewrite 2!Rmult_1_l.
    assert (C : (bexp b = bexp a /\ bman b = bman a + 1)
              \/ (bexp b = bexp a + 1 /\ bman a = 2 ^ 23 - 1 /\ bman b = 0)) by lia.
    destruct C as [[C1 C2]|(C1 & C2 & C3)].
    - rewrite C1, C2. destruct (bexp a =? 0).
      + apply Rmult_le_compat_r; [apply bpow_ge_0|apply IZR_le; lia].
      + apply Rmult_le_compat_r; [apply bpow_ge_0|apply IZR_le; lia].
    - rewrite C1, C2, C3.
      replace (bexp a + 1 =? 0) with false by (symmetry; apply Z.eqb_neq; lia).
      destruct (bexp a =? 0) eqn:E0.
      + apply Z.eqb_eq in E0. rewrite E0.
        change (0 + 1 - 150) with (-149).
        apply Rmult_le_compat_r; [apply bpow_ge_0|apply IZR_le; lia].
      + replace (bexp a + 1 - 150) with (1 + (bexp a - 150)) by ring.
        rewrite bpow_plus. change (bpow radix2 1) with 2%R. rewrite <- Rmult_assoc.
        apply Rmult_le_compat_r; [apply bpow_ge_0|].
        rewrite <- mult_IZR. apply IZR_le. lia. }
  assert (P : forall a, 0 <= a < 0x7F800000 -> (0 <= bval a)%R).
  { intros a Ha. pose proof (bits_split a ltac:(lia)) as [A1 A2].
    pose proof (bman_range a). pose proof (bexp_range a).
    assert (bsign a = 0) by lia. unfold bval. rewrite H1. simpl (0 =? 0). cbv iota.
    rewrite Rmult_1_l.
    destruct (bexp a =? 0); apply Rmult_le_pos; try apply bpow_ge_0; apply IZR_le; lia. }
  intros a b Hab Hb. split; [apply P; lia|].
  assert (I : forall n : nat, a + Z.of_nat n < 0x7F800000 -> (bval a <= bval (a + Z.of_nat n))%R).
  { induction n as [|n IH]; intros Hn.
    - rewrite Nat2Z.inj_0, Z.add_0_r. apply Rle_refl.
    - apply Rle_trans with (1 := IH ltac:(lia)). apply S; lia. }
  replace b with (a + Z.of_nat (Z.to_nat (b - a))) by lia. apply I. lia.
Qed.

(** ** Rounding *)

Lemma fexp_FLT : forall e, SpecFloat.fexp 24 128 e = FLT_exp (-149) 24 e.
Proof. reflexivity. Qed.

#[global] Instance vexp : Valid_exp (FLT_exp (-149) 24).
Proof. apply FLT_exp_valid. reflexivity. Qed.
#[global] Instance mexp : Monotone_exp (FLT_exp (-149) 24).
Proof. apply FLT_exp_monotone. Qed.

Definition fmt (r : R) : Prop := generic_format radix2 (FLT_exp (-149) 24) r.

Lemma fmt_val : forall x, fmt (val x).
Proof. intros x. apply (generic_format_B2R 24 128). Qed.

Lemma fmt_bpow : forall k, -149 <= k -> fmt (bpow radix2 k).
Proof. intros k Hk. apply generic_format_bpow. unfold FLT_exp. lia. Qed.

Lemma rnd_fmt : forall r, fmt r -> rnd r = r.
Proof. intros r H. apply round_generic; [apply valid_rnd_N|assumption]. Qed.

Lemma rnd_le : forall a b, (a <= b)%R -> (rnd a <= rnd b)%R.
Proof. intros a b H. apply round_le; [apply vexp|apply valid_rnd_N|assumption]. Qed.

Lemma fmt_rnd : forall r, fmt (rnd r).
Proof. intros r. apply generic_format_round; [apply vexp|apply valid_rnd_N]. Qed.

Lemma rnd_opp : forall a, rnd (- a) = (- rnd a)%R.
Proof. intros a. apply round_NE_opp. Qed.

Lemma fmt_opp : forall a, fmt a -> fmt (- a).
Proof. intros a. apply generic_format_opp. Qed.

Lemma rnd_abs_le : forall k r, -149 <= k -> (Rabs r <= bpow radix2 k)%R -> (Rabs (rnd r) <= bpow radix2 k)%R.
Proof.
  intros k r Hk H. apply Rabs_le_inv in H. apply Rabs_le.
  rewrite <- (rnd_fmt _ (fmt_bpow k Hk)). rewrite <- rnd_opp.
  split; apply rnd_le; apply H.
Qed.

(** Absolute error by magnitude bound. *)
Lemma rnd_err : forall k r, -125 <= k -> (Rabs r <= bpow radix2 k)%R ->
  (Rabs (rnd r - r) <= bpow radix2 (k - 25))%R.
Proof.
  intros k r Hk H.
  destruct (Rle_lt_or_eq_dec _ _ H) as [L|L].
  - apply Rle_trans with (/ 2 * ulp radix2 (FLT_exp (-149) 24) r)%R.
    { apply error_le_half_ulp. apply vexp. }
    assert (ulp radix2 (FLT_exp (-149) 24) r <= bpow radix2 (k - 24))%R.
    { destruct (Req_dec r 0) as [Z|Z].
      - subst r. rewrite ulp_FLT_0 by reflexivity. apply bpow_le. lia.
      - rewrite ulp_neq_0 by assumption. apply bpow_le. unfold cexp, FLT_exp.
        assert (mag radix2 r <= k) by (apply mag_le_bpow; assumption). lia. }
    replace (k - 25) with (-1 + (k - 24)) by ring. rewrite bpow_plus.
    change (bpow radix2 (-1)) with (/ 2)%R. lra.
  - assert (F : fmt r).
    { destruct (Rle_or_lt 0 r) as [P|P].
      - rewrite Rabs_pos_eq in L by assumption. rewrite L. apply fmt_bpow. lia.
      - rewrite Rabs_left in L by assumption. replace r with (- bpow radix2 k)%R by lra.
        apply fmt_opp, fmt_bpow. lia. }
    rewrite rnd_fmt by assumption. rewrite Rminus_diag_eq, Rabs_R0 by reflexivity.
    apply bpow_ge_0.
Qed.

(** Relative error in the normal range. *)
Lemma rnd_rel : forall r, (bpow radix2 (-126) <= Rabs r)%R ->
  (Rabs (rnd r - r) <= bpow radix2 (-24) * Rabs r)%R.
Proof.
  intros r H.
  assert (E := relative_error_N_FLT radix2 (-149) 24 ltac:(reflexivity)
    (fun n => negb (Z.even n)) r H).
  change (Rabs (rnd r - r) <= / 2 * bpow radix2 (-24 + 1) * Rabs r)%R in E.
  replace (bpow radix2 (-24)) with (/ 2 * bpow radix2 (-24 + 1))%R; [assumption|].
  change (-24 + 1) with (1 + -24). rewrite bpow_plus.
  change (bpow radix2 1) with 2%R. field.
Qed.

(** Combined: relative plus subnormal half-ulp. *)
Lemma rnd_err_mixed : forall r,
  (Rabs (rnd r - r) <= bpow radix2 (-24) * Rabs r + bpow radix2 (-150))%R.
Proof.
  intros r. destruct (Rle_or_lt (bpow radix2 (-126)) (Rabs r)) as [H|H].
  - pose proof (rnd_rel r H). pose proof (bpow_ge_0 radix2 (-150)). lra.
  - assert (H' : (Rabs r <= bpow radix2 (-125))%R).
    { apply Rlt_le, Rlt_le_trans with (1 := H). apply bpow_le. lia. }
    pose proof (rnd_err (-125) r ltac:(lia) H') as E.
    change (-125 - 25) with (-150) in E.
    pose proof (bpow_ge_0 radix2 (-24)). pose proof (Rabs_pos r).
    assert (0 <= bpow radix2 (-24) * Rabs r)%R by (apply Rmult_le_pos; assumption). lra.
Qed.

(** ** Arithmetic *)

Lemma small_lt_128 : forall k r, -149 <= k <= 127 -> (Rabs r <= bpow radix2 k)%R ->
  (Rabs (rnd r) < bpow radix2 128)%R.
Proof.
  intros k r Hk H. apply Rle_lt_trans with (bpow radix2 k).
  - apply rnd_abs_le; [lia|assumption].
  - apply bpow_lt. lia.
Qed.

Lemma fadd_R : forall {E : Env} x y, fin x -> fin y ->
  (Rabs (rnd (val x + val y)) < bpow radix2 128)%R ->
  fin (fadd x y) /\ val (fadd x y) = rnd (val x + val y).
Proof.
  intros E x y Hx Hy H.
  pose proof (Bplus_correct 24 128 prec24 emax128 nan_add mode_NE x y Hx Hy) as C.
  rewrite Rlt_bool_true in C by exact H. destruct C as (C1 & C2 & _). split; assumption.
Qed.

Lemma fsub_R : forall {E : Env} x y, fin x -> fin y ->
  (Rabs (rnd (val x - val y)) < bpow radix2 128)%R ->
  fin (fsub x y) /\ val (fsub x y) = rnd (val x - val y).
Proof.
  intros E x y Hx Hy H.
  pose proof (Bminus_correct 24 128 prec24 emax128 nan_sub mode_NE x y Hx Hy) as C.
  rewrite Rlt_bool_true in C by exact H. destruct C as (C1 & C2 & _). split; assumption.
Qed.

Lemma fmul_R : forall {E : Env} x y, fin x -> fin y ->
  (Rabs (rnd (val x * val y)) < bpow radix2 128)%R ->
  fin (fmul x y) /\ val (fmul x y) = rnd (val x * val y).
Proof.
  intros E x y Hx Hy H.
  pose proof (Bmult_correct 24 128 prec24 emax128 nan_mul mode_NE x y) as C.
  rewrite Rlt_bool_true in C by exact H. destruct C as (C1 & C2 & _). split; [|assumption].
  unfold fin, is_finite, fmul. rewrite C2. unfold fin, is_finite in *. rewrite Hx, Hy. reflexivity.
Qed.

Lemma fdiv_R : forall {E : Env} x y, fin x -> fin y -> (val y <> 0)%R ->
  (Rabs (rnd (val x / val y)) < bpow radix2 128)%R ->
  fin (fdiv x y) /\ val (fdiv x y) = rnd (val x / val y).
Proof.
  intros E x y Hx Hy Hz H.
  pose proof (Bdiv_correct 24 128 prec24 emax128 nan_div mode_NE x y Hz) as C.
  rewrite Rlt_bool_true in C by exact H. destruct C as (C1 & C2 & _). split; [|assumption].
  unfold fin, is_finite, fdiv. rewrite C2. exact Hx.
Qed.

(** The same with a magnitude bound: value, finiteness, error, bound. *)
Definition rounds_to (k : Z) (z : f32) (r : R) : Prop :=
  fin z /\ val z = rnd r /\ (Rabs (val z - r) <= bpow radix2 (k - 25))%R
  /\ (Rabs (val z) <= bpow radix2 k)%R.

Lemma rounds_to_intro : forall k z r, -125 <= k <= 127 -> (Rabs r <= bpow radix2 k)%R ->
  fin z -> val z = rnd r -> rounds_to k z r.
Proof.
  intros k z r Hk H F V. repeat split; try assumption; rewrite V.
  - apply rnd_err; [lia|assumption].
  - apply rnd_abs_le; [lia|assumption].
Qed.

Lemma fadd_k : forall {E : Env} k x y, fin x -> fin y -> -125 <= k <= 127 ->
  (Rabs (val x + val y) <= bpow radix2 k)%R -> rounds_to k (fadd x y) (val x + val y).
Proof.
  intros E k x y Hx Hy Hk H.
  destruct (fadd_R x y Hx Hy (small_lt_128 k _ ltac:(lia) H)).
  apply rounds_to_intro; assumption.
Qed.
Lemma fsub_k : forall {E : Env} k x y, fin x -> fin y -> -125 <= k <= 127 ->
  (Rabs (val x - val y) <= bpow radix2 k)%R -> rounds_to k (fsub x y) (val x - val y).
Proof.
  intros E k x y Hx Hy Hk H.
  destruct (fsub_R x y Hx Hy (small_lt_128 k _ ltac:(lia) H)).
  apply rounds_to_intro; assumption.
Qed.
Lemma fmul_k : forall {E : Env} k x y, fin x -> fin y -> -125 <= k <= 127 ->
  (Rabs (val x * val y) <= bpow radix2 k)%R -> rounds_to k (fmul x y) (val x * val y).
Proof.
  intros E k x y Hx Hy Hk H.
  destruct (fmul_R x y Hx Hy (small_lt_128 k _ ltac:(lia) H)).
  apply rounds_to_intro; assumption.
Qed.
Lemma fdiv_k : forall {E : Env} k x y, fin x -> fin y -> (val y <> 0)%R -> -125 <= k <= 127 ->
  (Rabs (val x / val y) <= bpow radix2 k)%R -> rounds_to k (fdiv x y) (val x / val y).
Proof.
  intros E k x y Hx Hy Hz Hk H.
  destruct (fdiv_R x y Hx Hy Hz (small_lt_128 k _ ltac:(lia) H)).
  apply rounds_to_intro; assumption.
Qed.

(** ** Comparisons *)

Lemma flt_R : forall x y, fin x -> fin y -> flt x y = Rlt_bool (val x) (val y).
Proof.
  intros x y Hx Hy. unfold flt. rewrite Bcompare_correct by assumption.
  unfold Rlt_bool. unfold val. destruct (Rcompare _ _); reflexivity.
Qed.
Lemma fle_R : forall x y, fin x -> fin y -> fle x y = Rle_bool (val x) (val y).
Proof.
  intros x y Hx Hy. unfold fle. rewrite Bcompare_correct by assumption.
  unfold Rle_bool. unfold val. destruct (Rcompare _ _); reflexivity.
Qed.
Lemma feq_R : forall x y, fin x -> fin y -> feq x y = Req_bool (val x) (val y).
Proof.
  intros x y Hx Hy. unfold feq. rewrite Bcompare_correct by assumption.
  unfold Req_bool. unfold val. destruct (Rcompare _ _); reflexivity.
Qed.
Lemma cmp_nan_l : forall x y, nan x -> Bcompare 24 128 x y = None.
Proof. intros x y H. destruct x; try discriminate H. destruct y; reflexivity. Qed.
Lemma cmp_nan_r : forall x y, nan y -> Bcompare 24 128 x y = None.
Proof. intros x y H. destruct y; try discriminate H. destruct x; reflexivity. Qed.

(** ** Negation *)
Lemma fneg_val : forall x, val (fneg x) = (- val x)%R.
Proof.
  intros x. destruct x as [s|s|s pl H|s m e H]; simpl; try (unfold val; simpl; ring).
  unfold val, B2R, F2R. cbv beta iota delta [Fnum Fexp].
  destruct s; unfold cond_Zopp; simpl negb; cbv iota; rewrite opp_IZR; ring.
Qed.
Lemma fneg_fin : forall x, fin x -> fin (fneg x).
Proof. intros x H. destruct x; exact H. Qed.
Lemma fneg_is_finite : forall x, is_finite (fneg x) = is_finite x.
Proof. intros x. destruct x; reflexivity. Qed.
Lemma fneg_is_nan : forall x, is_nan (fneg x) = is_nan x.
Proof. intros x. destruct x; reflexivity. Qed.
Lemma fneg_sign : forall x, sign_bit (fneg x) = negb (sign_bit x).
Proof. intros x. destruct x; reflexivity. Qed.
Lemma fneg_involutive : forall x, fneg (fneg x) = x.
Proof. intros x. destruct x; simpl; rewrite negb_involutive; reflexivity. Qed.

(** ** Integer conversions *)
Lemma f32_of_Z_R : forall n, Z.abs n <= 2 ^ 127 ->
  fin (f32_of_Z n) /\ val (f32_of_Z n) = rnd (IZR n).
Proof.
  intros n Hn.
  pose proof (binary_normalize_correct 24 128 prec24 emax128 mode_NE n 0 false) as C.
  assert (F : F2R (Float radix2 n 0) = IZR n) by (unfold F2R; simpl; ring).
  rewrite F in C. rewrite Rlt_bool_true in C.
  - destruct C as (C1 & C2 & _). split; assumption.
  - apply (small_lt_128 127); [lia|]. rewrite <- abs_IZR.
    change (bpow radix2 127) with (IZR (2 ^ 127)). apply IZR_le. assumption.
Qed.

Lemma fmt_IZR : forall n, Z.abs n <= 2 ^ 24 -> fmt (IZR n).
Proof.
  intros n Hn.
  destruct (Z.eq_dec (Z.abs n) (2 ^ 24)) as [E|E].
  - assert (fmt (bpow radix2 24)) by (apply fmt_bpow; lia).
    change (bpow radix2 24) with (IZR (2 ^ 24)) in H.
    destruct (Z.abs_spec n) as [[_ S]|[_ S]].
    + replace n with (2 ^ 24) by lia. assumption.
    + replace n with (- (2 ^ 24)) by lia. rewrite opp_IZR. apply fmt_opp. assumption.
  - apply generic_format_FLT. apply FLT_spec with (Float radix2 n 0).
    + unfold F2R; simpl; ring.
    + simpl. change (Z.pow_pos 2 24) with (2 ^ 24). lia.
    + simpl. lia.
Qed.

Lemma f32_of_Z_exact : forall n, Z.abs n <= 2 ^ 24 ->
  fin (f32_of_Z n) /\ val (f32_of_Z n) = IZR n.
Proof.
  intros n Hn. destruct (f32_of_Z_R n) as [A B].
  - assert (2 ^ 24 <= 2 ^ 127) by (apply Z.pow_le_mono_r; lia). lia.
  - split; [assumption|]. rewrite B. apply rnd_fmt, fmt_IZR. assumption.
Qed.

(** [as i32]. *)
Lemma Btrunc_Ztrunc : forall x, Btrunc 24 128 x = Ztrunc (val x).
Proof.
  intros x. apply eq_IZR. rewrite Btrunc_correct by reflexivity.
  rewrite round_FIX_IZR. reflexivity.
Qed.

Lemma to_i32_fin : forall x, fin x -> to_i32 x = clamp i32 (Ztrunc (val x)).
Proof.
  intros x Hx. unfold to_i32. rewrite <- Btrunc_Ztrunc.
  destruct x; try discriminate Hx; reflexivity.
Qed.
