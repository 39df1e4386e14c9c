(** * Proofs: powf *)

From Coq Require Import Zquot ZArith Reals Bool List Lia Lra.
From Flocq Require Import Core IEEE754.BinarySingleNaN IEEE754.Binary IEEE754.Bits.
From Verif Require Import Base Spec Float F32Lemmas BitLemmas Literals ErrLemmas NanLemmas
  P_Trunc P_Floor P_Euclid P_RoundEdge P_Roots P_Atan P_Ln P_Exp P_Cosh RealBounds4 RealBounds5.
Open Scope Z_scope.

(** ** is_integer and is_even *)

Lemma is_integer_trunc : forall n, 127 <= bexp (to_bits n) -> (is_integer n = true <-> F32_trunc n = n).
Proof.
  intros n H. unfold is_integer. cbv zeta. rewrite extract_exponent_value_eq, Z.max_l by lia.
  pose proof (to_bits_range n) as R. rewrite frac_part by exact R. rewrite Z.eqb_eq.
  pose proof (trunc_bits n H) as T. cbv zeta in T.
  pose proof (Z.mod_pos_bound (bexp (to_bits n) - 127) 32 ltac:(lia)) as K0.
  set (k := (bexp (to_bits n) - 127) mod 32) in *. destruct (k <? 23) eqn:K.
  - apply Z.ltb_lt in K. pose proof (Z.mod_pos_bound (bman (to_bits n)) (2 ^ (23 - k)) ltac:(lia)) as M.
    assert (P : 0 < 2 ^ k) by (apply Z.pow_pos_nonneg; lia). split; intros A.
    + assert (B : bman (to_bits n) mod 2 ^ (23 - k) = 0) by nia. apply to_bits_inj. lia.
    + rewrite A in T. assert (B : bman (to_bits n) mod 2 ^ (23 - k) = 0) by lia. rewrite B. reflexivity.
  - split; [intros _; apply to_bits_inj; lia|reflexivity].
Qed.

Lemma is_integer_R : forall n, fin n -> (1 <= Rabs (val n) < bpow radix2 32)%R ->
  (is_integer n = true <-> exists k, val n = IZR k).
Proof.
  intros n F [A B]. pose proof (bexp_ge n 0 F ltac:(lia) A) as L. simpl in L.
  rewrite is_integer_trunc by lia. destruct (trunc_exact n F B) as (TF & TV & TS). split.
  - intros T. exists (Ztrunc (val n)). rewrite <- TV, T. reflexivity.
  - intros [k K]. apply fin_dec_eq; trivial. rewrite TV, K, Ztrunc_IZR. reflexivity.
Qed.

Lemma is_integer_small : forall n, bexp (to_bits n) < 127 -> (is_integer n = true <-> bman (to_bits n) = 0).
Proof.
  intros n H. unfold is_integer. cbv zeta. rewrite extract_exponent_value_eq, Z.max_r by lia.
  rewrite frac_part by apply to_bits_range. change (0 mod 32) with 0. change (0 <? 23) with true. cbv iota.
  change (23 - 0) with 23. change (2 ^ 0) with 1. rewrite Z.mul_1_r, Z.eqb_eq.
  rewrite Z.mod_small by apply bman_range. reflexivity.
Qed.

Lemma is_integer_zero : forall n, fin n -> val n = 0%R -> is_integer n = true.
Proof.
  intros n F V. destruct n as [s|s|s pl H|s m e H]; try discriminate F.
  - destruct s; vm_compute; reflexivity.
  - exfalso. assert (is_finite_strict 24 128 (B754_finite s m e H) = true) as S by reflexivity.
    unfold val in V. simpl in V. apply (F2R_neq_0 radix2 (Float radix2 (cond_Zopp s (Zpos m)) e)) in V; [exact V|].
    simpl. destruct s; discriminate.
Qed.

Lemma is_integer_nan : forall n, nan n -> is_integer n = false.
Proof.
  intros n N. pose proof (fields n) as [_ P]. destruct n as [s|s|s pl H|s m e H]; try discriminate N.
  destruct P as (Ex & M & _) || destruct P as (Ex & M).
  unfold is_integer. cbv zeta. rewrite extract_exponent_value_eq. rewrite Ex. change (Z.max (255 - 127) 0) with 128.
  rewrite frac_part by apply to_bits_range. change (128 mod 32) with 0. change (0 <? 23) with true. cbv iota.
  change (23 - 0) with 23. rewrite Z.mod_small by apply bman_range. apply Z.eqb_neq. 
  change (2 ^ 0) with 1. lia.
Qed.

Lemma is_integer_inf : forall s, is_integer (f32_inf s) = true.
Proof. intros [|]; vm_compute; reflexivity. Qed.

(** [is_even] looks at the truncated value. *)
Lemma is_even_R : forall n, fin n -> is_even n = Z.even (Ztrunc (val n)).
Proof.
  intros n F. unfold is_even. rewrite extract_exponent_value_eq.
  destruct (Z.leb_spec 31 (bexp (to_bits n) - 127)) as [L|L].
  - symmetry. destruct (Z.eq_dec (bexp (to_bits n)) 0) as [C|C]; [lia|].
    rewrite val_normal by assumption. set (e := bexp (to_bits n)) in *. set (m := 2 ^ 23 + bman (to_bits n)).
    replace (sgn n * (IZR m * bpow radix2 (e - 150)))%R with (IZR ((if sign_bit n then -1 else 1) * (m * 2 ^ (e - 150)))).
    2:{ rewrite !mult_IZR. rewrite (IZR_Zpower radix2) by lia. unfold sgn. destruct (sign_bit n); reflexivity. }
    rewrite Ztrunc_IZR. rewrite !Z.even_mul. rewrite (Z.even_pow 2 (e - 150)) by lia. rewrite !orb_true_r. reflexivity.
  - rewrite to_i32_fin by exact F.
    assert (B : (Rabs (val n) < bpow radix2 31)%R) by (apply abs_lt_bpow; [exact F|lia|lia]).
    assert (Z1 : - 2 ^ 31 < Ztrunc (val n) < 2 ^ 31).
    { change (bpow radix2 31) with (IZR (2 ^ 31)) in B. apply Rabs_def2 in B. destruct B as [B1 B2]. rewrite <- opp_IZR in B2.
      destruct (Rle_or_lt 0 (val n)) as [P|P].
      - rewrite Ztrunc_floor by exact P. pose proof (Zfloor_lb (val n)) as Q. pose proof (Zfloor_lub 0 (val n) P).
        split; [lia|]. apply lt_IZR. lra.
      - rewrite Ztrunc_ceil by lra. pose proof (Zceil_ub (val n)) as Q. pose proof (Zceil_glb 0 (val n) ltac:(lra)).
        split; [|lia]. apply lt_IZR. lra. }
    rewrite clamp_id by lia. symmetry. apply Zquot.Zeven_rem.
Qed.

(** ** Negative bases *)

Lemma without_sign_neg : forall x, sign_bit x = true -> without_sign x = fneg x.
Proof.
  intros x S. change (without_sign x) with (F32_abs x). rewrite abs_with_sign.
  destruct x as [s|s|s pl H|s m e H]; simpl in S; subst s; try reflexivity.
Qed.

Lemma fge_neg : forall x, sign_bit x = true -> feq x F32_ZERO = false -> fge x F32_ZERO = false.
Proof.
  intros x S Z0. destruct x as [s|s|s pl H|s m e H]; simpl in S; subst s; try reflexivity; discriminate Z0.
Qed.

Lemma fge_pos : forall x, is_nan x = false -> sign_bit x = false -> fge x F32_ZERO = true.
Proof.
  intros x N S. destruct x as [s|s|s pl H|s m e H]; simpl in S; subst s; try reflexivity; discriminate N.
Qed.

Lemma powf_nonneg : forall {E : Env} x n, is_nan x = false -> sign_bit x = false ->
  F32_powf x n = F32_exp (fmul n (F32_ln x)).
Proof. intros E x n N S. unfold F32_powf. rewrite fge_pos by assumption. reflexivity. Qed.

Lemma powf_neg : forall {E : Env} x n, is_nan x = false -> sign_bit x = true -> feq x F32_ZERO = false ->
  F32_powf x n = if negb (is_integer n) then Ok f32_NAN else if is_even n then F32_powf (fneg x) n
    else r <- F32_powf (fneg x) n ;; Ok (fneg r).
Proof.
  intros E x n N S Z0.
  rewrite (powf_nonneg (fneg x) n); [|destruct x; trivial|destruct x; simpl in *; try discriminate N; rewrite S; reflexivity].
  unfold F32_powf. rewrite fge_neg, without_sign_neg by assumption. reflexivity.
Qed.

Lemma neg_facts : forall x, is_nan x = false -> flt x F32_ZERO = true -> sign_bit x = true /\ feq x F32_ZERO = false.
Proof.
  intros x N L. destruct x as [s|s|s pl H|s m e H]; try discriminate N; destruct s; try discriminate L; split; reflexivity.
Qed.

Lemma lt_not_nan : forall x, flt x F32_ZERO = true -> is_nan x = false.
Proof. intros x L. destruct x; trivial. discriminate L. Qed.

Lemma integer_any : forall n k, fin n -> val n = IZR k -> (Rabs (val n) < bpow radix2 32)%R -> is_integer n = true.
Proof.
  intros n k F V B. destruct (Z.eq_dec k 0) as [->|K]; [apply is_integer_zero; assumption|].
  apply is_integer_R; [exact F| |exists k; exact V]. split; [|exact B].
  rewrite V, <- abs_IZR. apply IZR_le. lia.
Qed.

Lemma powf_even : forall {E : Env} x n k, flt x F32_ZERO = true -> fin n -> val n = IZR k -> (Rabs (val n) < bpow radix2 32)%R ->
  Z.Even k -> F32_powf x n = F32_powf (fneg x) n.
Proof.
  intros E x n k L F V B P. pose proof (lt_not_nan x L) as N. destruct (neg_facts x N L) as [S Z0].
  rewrite powf_neg by assumption. rewrite (integer_any n k F V B). rewrite is_even_R, V, Ztrunc_IZR by exact F.
  apply Z.even_spec in P. rewrite P. reflexivity.
Qed.

Lemma powf_odd : forall {E : Env} x n k, flt x F32_ZERO = true -> fin n -> val n = IZR k -> (Rabs (val n) < bpow radix2 32)%R ->
  Z.Odd k -> F32_powf x n = (r <- F32_powf (fneg x) n ;; Ok (fneg r)).
Proof.
  intros E x n k L F V B P. pose proof (lt_not_nan x L) as N. destruct (neg_facts x N L) as [S Z0].
  rewrite powf_neg by assumption. rewrite (integer_any n k F V B). rewrite is_even_R, V, Ztrunc_IZR by exact F.
  apply Z.odd_spec in P. rewrite <- Z.negb_odd, P. reflexivity.
Qed.

Lemma NAN_nan : forall {E : Env}, nan f32_NAN.
Proof. intros E. unfold f32_NAN. destruct nan_const as [z H]. exact H. Qed.

Lemma powf_nonint : forall {E : Env} x n, flt x F32_ZERO = true -> fin n -> (1 <= Rabs (val n) < bpow radix2 32)%R ->
  ~ (exists k, val n = IZR k) -> exists r, F32_powf x n = Ok r /\ nan r.
Proof.
  intros E x n L F B P. pose proof (lt_not_nan x L) as N. destruct (neg_facts x N L) as [S Z0].
  rewrite powf_neg by assumption. destruct (is_integer n) eqn:I; [exfalso; apply P, is_integer_R; assumption|].
  exists f32_NAN. split; [reflexivity|apply NAN_nan].
Qed.

(** Below one, exactly the powers of two (and zero) pass for integers. *)
Lemma powf_small : forall {E : Env} x n, flt x F32_ZERO = true -> fin n -> (Rabs (val n) < 1)%R ->
  F32_powf x n = if bman (to_bits n) =? 0 then F32_powf (fneg x) n else Ok f32_NAN.
Proof.
  intros E x n L F B. pose proof (lt_not_nan x L) as N. destruct (neg_facts x N L) as [S Z0].
  rewrite powf_neg by assumption. pose proof (bexp_lt n 0 F ltac:(lia) B) as X. simpl in X.
  pose proof (is_integer_small n X) as [I1 I2]. destruct (Z.eqb_spec (bman (to_bits n)) 0) as [M|M].
  - rewrite (I2 M). rewrite is_even_R by exact F. replace (Ztrunc (val n)) with 0; [reflexivity|].
    symmetry. apply Rabs_def2 in B. destruct (Rle_or_lt 0 (val n)) as [P|P].
    + rewrite Ztrunc_floor by exact P. apply Zfloor_imp. simpl. lra.
    + rewrite Ztrunc_ceil by lra. apply Zceil_imp. simpl. lra.
  - destruct (is_integer n); [exfalso; apply M, I1; reflexivity|reflexivity].
Qed.

Lemma pow2_man : forall n k, fin n -> -126 <= k <= 127 -> (Rabs (val n) = bpow radix2 k)%R -> bman (to_bits n) = 0.
Proof.
  intros n k F K V. destruct (mk_val (k + 127) 0 ltac:(lia) ltac:(lia)) as (ZF & ZS & ZB & ZV). cbv zeta in *.
  set (z := from_bits ((k + 127) * 2 ^ 23 + 0)) in *.
  assert (A : F32_abs n = z).
  { apply fin_dec_eq; [|exact ZF| |rewrite abs_sign, ZS; reflexivity].
    - unfold fin. rewrite abs_fin. exact F.
    - rewrite abs_val, V, ZV. replace (k + 127 - 127) with k by lia. unfold Rdiv. rewrite Rmult_0_l, Rplus_0_r, Rmult_1_l. reflexivity. }
  destruct (abs_fields n) as (_ & _ & M). rewrite <- M, A, ZB. unfold bman.
  rewrite Z.add_0_r. apply Z.mod_mul. discriminate.
Qed.

Lemma powf_pow2 : forall {E : Env} x n k, flt x F32_ZERO = true -> fin n -> 1 <= k <= 126 ->
  (Rabs (val n) = bpow radix2 (- k))%R -> F32_powf x n = F32_powf (fneg x) n.
Proof.
  intros E x n k L F K V. rewrite powf_small; [|exact L|exact F|].
  - rewrite (pow2_man n (- k) F) by (lia || exact V). reflexivity.
  - rewrite V. change 1%R with (bpow radix2 0). apply bpow_lt. lia.
Qed.

(** ** Accuracy *)

Lemma powf_core : forall {E : Env} x n, fin x -> (0 < val x)%R -> fin n -> fin (F32_ln x) ->
  (- 87.33 <= val n * val (F32_ln x) <= 88.72)%R ->
  exists r h e, F32_powf x n = Ok r /\ fin r /\ (0 < val r)%R /\
    val r = (exp (val n * val (F32_ln x) + h) * (1 + e))%R /\ (Rabs h <= 0.0000039)%R /\ (Rabs e <= 0.0023975)%R /\
    ((0 <= val n * val (F32_ln x))%R -> (Rabs e <= 0.000761)%R).
Proof.
  intros E x n Fx Px Fn FL B. pose proof (fin_not_nan _ Fx) as Nx.
  assert (Sx : sign_bit x = false).
  { pose proof (sign_val x Fx) as S. destruct (sign_bit x); [lra|reflexivity]. }
  rewrite powf_nonneg by assumption.
  assert (K7 : (bpow radix2 7 = 128)%R) by (bpow_lit; lra).
  assert (A : (Rabs (val n * val (F32_ln x)) <= bpow radix2 7)%R) by (apply Rabs_le; rewrite K7; lra).
  assert (SG : (0 <= val n * val (F32_ln x))%R -> (0 <= val (fmul n (F32_ln x)))%R).
  { destruct (fmul_R n (F32_ln x) Fn FL (small_lt_128 7 _ ltac:(lia) A)) as [_ V]. rewrite V. apply rnd_nonneg. }
  destruct (fmul_e 7 n (F32_ln x) Fn FL ltac:(lia) A) as (h & Fp & Vp & H). set (p := fmul n (F32_ln x)) in *. clearbody p.
  assert (H' : (Rabs h <= 0.0000039)%R) by (apply Rle_trans with (1 := H); change (7 - 25) with (-18); bpow_lit; lra). clear H.
  pose proof (exp_pos (val p)) as EP. apply Rabs_le_inv in H'.
  assert (FIN : forall r a, (Rabs (val r - exp (val p)) <= a * exp (val p))%R ->
    exists e, val r = (exp (val p) * (1 + e))%R /\ (Rabs e <= a)%R).
  { intros r a D. exists ((val r - exp (val p)) / exp (val p))%R. split; [field; lra|].
    unfold Rdiv. rewrite Rabs_mult, (Rabs_pos_eq (/ _)) by (left; apply Rinv_0_lt_compat; exact EP).
    apply Rmult_le_reg_r with (exp (val p)); [exact EP|]. rewrite (Rmult_assoc (Rabs (val r - exp (val p)))). rewrite Rinv_l by lra. lra. }
  destruct (Rle_or_lt 0 (val p)) as [P|P].
  - destruct (exp_acc_pos p Fp ltac:(lra)) as (r & R1 & R2 & R3 & R4).
    destruct (FIN r _ R4) as (e & V & De). exists r, h, e. rewrite <- Vp.
    split; [exact R1|]. split; [exact R2|]. split; [exact R3|]. split; [exact V|]. split; [apply Rabs_le; exact H'|]. split; [lra|intros _; exact De].
  - destruct (exp_acc_neg p Fp ltac:(lra)) as (r & R1 & R2 & R3 & R4).
    destruct (FIN r _ R4) as (e & V & De). exists r, h, e. rewrite <- Vp.
    split; [exact R1|]. split; [exact R2|]. split; [exact R3|]. split; [exact V|]. split; [apply Rabs_le; exact H'|]. split; [exact De|].
    intros Q. specialize (SG Q). lra.
Qed.

Lemma Rpower_eq : forall x y, Rpower x y = exp (y * ln x).
Proof. reflexivity. Qed.

Lemma exp_mono_le : forall a b, (a <= b)%R -> (exp a <= exp b)%R.
Proof. intros a b [H| ->]; [left; apply exp_increasing; exact H|right; reflexivity]. Qed.

Lemma exp_two : forall D, (2 <= exp D + exp (- D))%R.
Proof.
  intros D. rewrite exp_Ropp. pose proof (exp_pos D) as P. set (u := exp D) in *. clearbody u.
  apply Rmult_le_reg_r with u; [exact P|]. rewrite Rmult_plus_distr_r, Rinv_l by lra.
  pose proof (Rle_0_sqr (u - 1)) as Q. unfold Rsqr in Q. lra.
Qed.

Lemma powf_acc_ge1 : forall {E : Env} x n, fin x -> (1 <= val x)%R -> fin n -> (Rabs (val n) * (ln (val x) + 0.0000761) <= 87.33)%R ->
  exists r, F32_powf x n = Ok r /\ fin r /\ (0 < val r)%R /\
    (Rabs (val r - Rpower (val x) (val n)) <= (1.0023975 * exp (0.0000761 * Rabs (val n) + 0.0000039) - 1) * Rpower (val x) (val n))%R.
Proof.
  intros E x n Fx H1 Fn B. destruct (ln_acc_ge1 x Fx H1) as [FL DL].
  pose proof (ln_val_range x Fx H1) as LR. apply Rabs_le_inv in DL.
  set (L := val (F32_ln x)) in *. set (l := ln (val x)) in *. set (N := val n) in *.
  assert (DN : (Rabs (N * (L - l)) <= 0.0000761 * Rabs N)%R).
  { rewrite Rabs_mult, Rmult_comm. apply Rmult_le_compat_r; [apply Rabs_pos|apply Rabs_le; lra]. }
  assert (BL : (Rabs (N * L) <= 87.33)%R).
  { apply Rle_trans with (2 := B). rewrite Rabs_mult. apply Rmult_le_compat_l; [apply Rabs_pos|]. apply Rabs_le. lra. }
  apply Rabs_le_inv in BL. apply Rabs_le_inv in DN.
  destruct (powf_core x n Fx ltac:(lra) Fn FL) as (r & h & e & R1 & R2 & R3 & R4 & R5 & R6 & _); [fold N L; lra|].
  fold N L in R4. exists r. split; [exact R1|]. split; [exact R2|]. split; [exact R3|].
  unfold Rpower. fold l N.
  replace (exp (N * L + h)) with (exp (N * l) * exp (N * (L - l) + h))%R in R4 by (rewrite <- exp_plus; f_equal; ring).
  set (D := (0.0000761 * Rabs N + 0.0000039)%R). pose proof (exp_pos (N * l)) as XP. set (X := exp (N * l)) in *.
  apply Rabs_le_inv in R5. apply Rabs_le_inv in R6.
  assert (G1 : (exp (N * (L - l) + h) <= exp D)%R) by (apply exp_mono_le; unfold D; lra).
  assert (G2 : (exp (- D) <= exp (N * (L - l) + h))%R) by (apply exp_mono_le; unfold D; lra).
  pose proof (exp_pos (- D)) as P1. pose proof (exp_two D) as P2.
  assert (P0 : (0 <= D)%R) by (unfold D; pose proof (Rabs_pos N); lra).
  assert (P3 : (exp (- D) <= exp D)%R) by (apply exp_mono_le; lra).
  set (g := exp (N * (L - l) + h)) in *. clearbody X g. set (u := exp D) in *. set (w := exp (- D)) in *. clearbody u w.
  assert (Q1 : (g * (1 + e) <= u * 1.0023975)%R) by (apply Rmult_le_compat; lra).
  assert (Q2 : (w * 0.9976025 <= g * (1 + e))%R) by (apply Rmult_le_compat; lra).
  rewrite R4. replace (X * g * (1 + e) - X)%R with ((g * (1 + e) - 1) * X)%R by ring.
  rewrite Rabs_mult, (Rabs_pos_eq X) by lra. apply Rmult_le_compat_r; [lra|].
  apply Rabs_le. lra.
Qed.

Lemma powf_acc_8 : forall {E : Env} x n, fin x -> (1 <= val x)%R -> fin n -> (Rabs (val n) <= 8)%R -> (Rabs (val n) * ln (val x) <= 87)%R ->
  exists r, F32_powf x n = Ok r /\ fin r /\ (0 < val r)%R /\
    (Rabs (val r - Rpower (val x) (val n)) <= 0.0031 * Rpower (val x) (val n))%R.
Proof.
  intros E x n Fx H1 Fn B8 B. destruct (powf_acc_ge1 x n Fx H1 Fn) as (r & R1 & R2 & R3 & R4); [lra|].
  exists r. split; [exact R1|]. split; [exact R2|]. split; [exact R3|]. apply Rle_trans with (1 := R4).
  apply Rmult_le_compat_r; [left; apply exp_pos|].
  assert (Q : (exp (0.0000761 * Rabs (val n) + 0.0000039) <= exp 0.000614)%R) by (apply exp_mono_le; lra).
  pose proof exp_614. lra.
Qed.

(** Below one the bit-trick reciprocal makes the result too small (n > 0) or too large (n < 0). *)
Lemma powf_acc_lt1 : forall {E : Env} x n, normal_pos x -> (val x < 1)%R -> fin n -> (0 <= val n)%R -> (val n * (0.11786 - ln (val x)) <= 87.33)%R ->
  exists r, F32_powf x n = Ok r /\ fin r /\
    (0.9976 * exp (- (0.11786 * val n + 0.0000039)) * Rpower (val x) (val n) <= val r <=
     1.0024 * exp (0.0000761 * val n + 0.0000039) * Rpower (val x) (val n))%R.
Proof.
  intros E x n Nx H1 Fn Pn B. destruct (ln_acc_lt1 x Nx H1) as [FL DL].
  pose proof (ln_val_range_lt1 x Nx H1) as LR.
  assert (PX : (0 < val x)%R) by (destruct Nx as [_ Q]; pose proof (bpow_gt_0 radix2 (-126)); lra).
  pose proof (proj1 Nx) as Fx.
  set (L := val (F32_ln x)) in *. set (l := ln (val x)) in *. set (N := val n) in *.
  assert (D1 : (N * (- 0.11786) <= N * (L - l))%R) by (apply Rmult_le_compat_l; lra).
  assert (D2 : (N * (L - l) <= N * 0.0000761)%R) by (apply Rmult_le_compat_l; lra).
  assert (D3 : (N * l <= 0)%R) by (pose proof (Rmult_le_compat_l N l 0 Pn (proj2 LR)); lra).
  assert (D4 : (N <= 741)%R) by (assert (Q : (N * 0.11786 <= 87.33)%R) by lra; lra).
  destruct (powf_core x n Fx PX Fn FL) as (r & h & e & R1 & R2 & R3 & R4 & R5 & R6 & _); [fold N L; lra|].
  fold N L in R4. exists r. split; [exact R1|]. split; [exact R2|].
  unfold Rpower. fold l N.
  replace (exp (N * L + h)) with (exp (N * l) * exp (N * (L - l) + h))%R in R4 by (rewrite <- exp_plus; f_equal; ring).
  pose proof (exp_pos (N * l)) as XP. set (X := exp (N * l)) in *. apply Rabs_le_inv in R5. apply Rabs_le_inv in R6.
  assert (G1 : (exp (N * (L - l) + h) <= exp (0.0000761 * N + 0.0000039))%R) by (apply exp_mono_le; lra).
  assert (G2 : (exp (- (0.11786 * N + 0.0000039)) <= exp (N * (L - l) + h))%R) by (apply exp_mono_le; lra).
  pose proof (exp_pos (- (0.11786 * N + 0.0000039))) as P1.
  set (g := exp (N * (L - l) + h)) in *. clearbody X g. set (u := exp (0.0000761 * N + 0.0000039)) in *. set (w := exp (- (0.11786 * N + 0.0000039))) in *. clearbody u w.
  assert (Q1 : (g * (1 + e) <= u * 1.0024)%R) by (apply Rmult_le_compat; lra).
  assert (Q2 : (w * 0.9976 <= g * (1 + e))%R) by (apply Rmult_le_compat; lra).
  rewrite R4. replace (X * g * (1 + e))%R with (g * (1 + e) * X)%R by ring. split; apply Rmult_le_compat_r; lra.
Qed.

Lemma powf_acc_lt1_neg : forall {E : Env} x n, normal_pos x -> (val x < 1)%R -> fin n -> (val n <= 0)%R -> (- val n * (0.11786 - ln (val x)) <= 87.33)%R ->
  exists r, F32_powf x n = Ok r /\ fin r /\
    (0.9976 * exp (- (- 0.0000761 * val n + 0.0000039)) * Rpower (val x) (val n) <= val r <=
     1.0024 * exp (- 0.11786 * val n + 0.0000039) * Rpower (val x) (val n))%R.
Proof.
  intros E x n Nx H1 Fn Pn B. destruct (ln_acc_lt1 x Nx H1) as [FL DL].
  pose proof (ln_val_range_lt1 x Nx H1) as LR.
  assert (PX : (0 < val x)%R) by (destruct Nx as [_ Q]; pose proof (bpow_gt_0 radix2 (-126)); lra).
  pose proof (proj1 Nx) as Fx.
  set (L := val (F32_ln x)) in *. set (l := ln (val x)) in *. set (N := val n) in *.
  assert (D1 : (- N * (- 0.11786) <= - N * (L - l))%R) by (apply Rmult_le_compat_l; lra).
  assert (D2 : (- N * (L - l) <= - N * 0.0000761)%R) by (apply Rmult_le_compat_l; lra).
  assert (D3 : (- N * l <= 0)%R) by (pose proof (Rmult_le_compat_l (- N) l 0 ltac:(lra) (proj2 LR)); lra).
  assert (D4 : (- N <= 741)%R) by (assert (Q : (- N * 0.11786 <= 87.33)%R) by lra; lra).
  destruct (powf_core x n Fx PX Fn FL) as (r & h & e & R1 & R2 & R3 & R4 & R5 & R6 & _); [fold N L; lra|].
  fold N L in R4. exists r. split; [exact R1|]. split; [exact R2|].
  unfold Rpower. fold l N.
  replace (exp (N * L + h)) with (exp (N * l) * exp (N * (L - l) + h))%R in R4 by (rewrite <- exp_plus; f_equal; ring).
  pose proof (exp_pos (N * l)) as XP. set (X := exp (N * l)) in *. apply Rabs_le_inv in R5. apply Rabs_le_inv in R6.
  assert (G1 : (exp (N * (L - l) + h) <= exp (- 0.11786 * N + 0.0000039))%R) by (apply exp_mono_le; lra).
  assert (G2 : (exp (- (- 0.0000761 * N + 0.0000039)) <= exp (N * (L - l) + h))%R) by (apply exp_mono_le; lra).
  pose proof (exp_pos (- (- 0.0000761 * N + 0.0000039))) as P1.
  set (g := exp (N * (L - l) + h)) in *. clearbody X g. set (u := exp (- 0.11786 * N + 0.0000039)) in *. set (w := exp (- (- 0.0000761 * N + 0.0000039))) in *. clearbody u w.
  assert (Q1 : (g * (1 + e) <= u * 1.0024)%R) by (apply Rmult_le_compat; lra).
  assert (Q2 : (w * 0.9976 <= g * (1 + e))%R) by (apply Rmult_le_compat; lra).
  rewrite R4. replace (X * g * (1 + e))%R with (g * (1 + e) * X)%R by ring. split; apply Rmult_le_compat_r; lra.
Qed.

(** ** Special values *)

Lemma ln_fin : forall {E : Env} x, fin x -> sign_bit x = false -> fin (F32_ln x).
Proof.
  intros E x F S. destruct (Rlt_or_le (val x) (bpow radix2 (-126))) as [A|A]; [exact (proj1 (ln_subnormal x F S A))|].
  destruct (Rlt_or_le (val x) 1) as [B|B]; [exact (proj1 (ln_acc_lt1 x (conj F A) B))|exact (proj1 (ln_acc_ge1 x F B))].
Qed.

Lemma exp_zero : forall {E : Env} s, F32_exp (B754_zero s) = Ok F32_ONE.
Proof. intros E s. unfold F32_exp, F32_exp_ln2_approx. replace (feq (B754_zero s) F32_ZERO) with true by (destruct s; reflexivity). reflexivity. Qed.

Lemma zero_shape : forall p, fin p -> val p = 0%R -> exists s, p = B754_zero s.
Proof.
  intros n F V. destruct n as [s|s|s pl H|s m e H]; try discriminate F; [exists s; reflexivity|].
  exfalso. unfold val in V. simpl in V. apply (F2R_neq_0 radix2 (Float radix2 (cond_Zopp s (Zpos m)) e)) in V; [exact V|].
  simpl. destruct s; discriminate.
Qed.

Lemma fmul_val_zero : forall {E : Env} a b, fin a -> fin b -> (val a * val b = 0)%R -> exists s, fmul a b = B754_zero s.
Proof.
  intros E a b Fa Fb H. destruct (fmul_R a b Fa Fb) as [A B].
  - rewrite H. unfold rnd. rewrite round_0 by apply valid_rnd_N. rewrite Rabs_R0. apply bpow_gt_0.
  - apply zero_shape; [exact A|]. rewrite B, H. unfold rnd. apply round_0. apply valid_rnd_N.
Qed.

Lemma powf_exp_zero : forall {E : Env} x n, fin x -> fin n -> val n = 0%R -> (val x <> 0%R \/ sign_bit x = false) ->
  F32_powf x n = Ok F32_ONE.
Proof.
  intros E. assert (P : forall x n, fin x -> fin n -> val n = 0%R -> sign_bit x = false -> F32_powf x n = Ok F32_ONE).
  { intros x n Fx Fn Vn S. rewrite powf_nonneg by (exact (fin_not_nan _ Fx) || exact S).
    destruct (fmul_val_zero n (F32_ln x) Fn (ln_fin x Fx S)) as [s ->]; [rewrite Vn; ring|]. apply exp_zero. }
  intros x n Fx Fn Vn C. destruct (sign_bit x) eqn:S; [|apply P; assumption].
  destruct C as [C|C]; [|discriminate C].
  pose proof (sign_val x Fx) as Q. rewrite S in Q.
  assert (L : flt x F32_ZERO = true).
  { rewrite flt_R by (exact Fx || reflexivity). apply Rlt_bool_true. change (val F32_ZERO) with 0%R. lra. }
  rewrite powf_small; [|exact L|exact Fn|rewrite Vn, Rabs_R0; lra].
  destruct (zero_shape n Fn Vn) as [t ->]. replace (bman (to_bits (B754_zero t)) =? 0) with true by (destruct t; vm_compute; reflexivity).
  apply P; trivial; [apply fneg_fin; exact Fx|]. destruct x; try discriminate Fx; simpl in *; rewrite S; reflexivity.
Qed.

Lemma powf_one : forall {E : Env} n, fin n -> F32_powf F32_ONE n = Ok F32_ONE.
Proof.
  intros E n F. rewrite powf_nonneg by reflexivity.
  replace (F32_ln F32_ONE) with F32_ZERO by (apply to_bits_inj; vm_compute; reflexivity).
  destruct (fmul_val_zero n F32_ZERO F) as [s ->]; [reflexivity|change (val F32_ZERO) with 0%R; ring|]. apply exp_zero.
Qed.

Lemma fmul_fin_val : forall {E : Env} x y, fin x -> fin y -> fin (fmul x y) -> val (fmul x y) = rnd (val x * val y).
Proof.
  intros E x y Fx Fy F. destruct (Rlt_or_le (Rabs (rnd (val x * val y))) (bpow radix2 128)) as [O|O].
  - exact (proj2 (fmul_R x y Fx Fy O)).
  - exfalso. pose proof (Bmult_correct 24 128 prec24 emax128 nan_mul mode_NE x y) as C.
    rewrite Rlt_bool_false in C by exact O.
    fold (fmul x y) in C. unfold binary_overflow in C. simpl overflow_to_inf in C. cbv iota in C.
    destruct (fmul x y) as [s|s|s p K|s m e K]; simpl in C; discriminate.
Qed.

Lemma fmul_val_sign : forall {E : Env} x y, fin x -> fin y -> (val x * val y <> 0)%R ->
  sign_bit (fmul x y) = Rlt_bool (val x * val y) 0.
Proof.
  intros E x y Fx Fy H. rewrite fmul_sign by (apply fmul_fin_not_nan; assumption).
  pose proof (sign_val x Fx) as A. pose proof (sign_val y Fy) as B.
  destruct (Req_dec (val x) 0) as [X|X]; [rewrite X, Rmult_0_l in H; lra|].
  destruct (Req_dec (val y) 0) as [Y|Y]; [rewrite Y, Rmult_0_r in H; lra|].
  destruct (sign_bit x), (sign_bit y); simpl; symmetry; (apply Rlt_bool_true || apply Rlt_bool_false); nra.
Qed.

Lemma exp_mul_over : forall {E : Env} a b, fin a -> fin b -> (89.416 <= val a * val b)%R -> F32_exp (fmul a b) = Ok F32_INFINITY.
Proof.
  intros E a b Fa Fb H. apply exp_over.
  - apply fmul_fin_not_nan; assumption.
  - rewrite fmul_val_sign by (assumption || lra). apply Rlt_bool_false. lra.
  - intros F. rewrite fmul_fin_val by assumption. rewrite <- (rnd_fmt 89.415985107421875%R); [apply rnd_le; lra|].
    replace 89.415985107421875%R with (IZR 11719932 * bpow radix2 (-17))%R by (bpow_lit; lra). apply fmt_scaled; simpl; lia.
Qed.

Lemma exp_mul_under : forall {E : Env} a b, fin a -> fin b -> (val a * val b <= - 88.0297)%R -> F32_exp (fmul a b) = Ok F32_ZERO.
Proof.
  intros E a b Fa Fb H. apply exp_under.
  - apply fmul_fin_not_nan; assumption.
  - rewrite fmul_val_sign by (assumption || lra). apply Rlt_bool_true. lra.
  - intros F. rewrite fmul_fin_val by assumption. rewrite <- (rnd_fmt (- 88.029693603515625)%R); [apply rnd_le; lra|].
    replace (- 88.029693603515625)%R with (IZR (-11538228) * bpow radix2 (-17))%R by (bpow_lit; lra). apply fmt_scaled; simpl; lia.
Qed.

Lemma powf_over : forall {E : Env} x n, fin x -> (1 <= val x)%R -> fin n -> (0 <= val n)%R ->
  (89.416 <= val n * (ln (val x) - 0.0000761))%R -> F32_powf x n = Ok F32_INFINITY.
Proof.
  intros E x n Fx H1 Fn P H. destruct (ln_acc_ge1 x Fx H1) as [FL DL]. apply Rabs_le_inv in DL.
  assert (S : sign_bit x = false) by (pose proof (sign_val x Fx) as Q; destruct (sign_bit x); [lra|reflexivity]).
  rewrite powf_nonneg by (exact S || exact (fin_not_nan _ Fx)).
  apply exp_mul_over; trivial. apply Rle_trans with (1 := H). apply Rmult_le_compat_l; lra.
Qed.

Lemma powf_under : forall {E : Env} x n, fin x -> (1 <= val x)%R -> fin n -> (val n <= 0)%R ->
  (val n * (ln (val x) - 0.0000761) <= - 88.0297)%R -> F32_powf x n = Ok F32_ZERO.
Proof.
  intros E x n Fx H1 Fn P H. destruct (ln_acc_ge1 x Fx H1) as [FL DL]. apply Rabs_le_inv in DL.
  assert (S : sign_bit x = false) by (pose proof (sign_val x Fx) as Q; destruct (sign_bit x); [lra|reflexivity]).
  rewrite powf_nonneg by (exact S || exact (fin_not_nan _ Fx)).
  apply exp_mul_under; trivial. apply Rle_trans with (2 := H). apply Rmult_le_compat_neg_l; lra.
Qed.

(** 0^n is 0 only for n above about 1.0001; 0^0.5 is about 7.7e-20. *)
Lemma powf_zero : forall {E : Env} n, fin n -> (1.001 <= val n)%R -> F32_powf (f32_zero false) n = Ok F32_ZERO.
Proof.
  intros E n F H. rewrite powf_nonneg by reflexivity. rewrite ln_zero.
  set (c := from_bits 0xC2B00F3C). assert (Fc : fin c) by reflexivity.
  assert (Vc : (- 88.03 <= val c <= - 88.029)%R) by (unfold c; lit 0xC2B00F3C; bpow_lit; lra). clearbody c.
  apply exp_mul_under; trivial. nra.
Qed.

Lemma powf_zero_half : forall {E : Env}, F32_powf (f32_zero false) c_0_5 = Ok (from_bits 0x1FB50610).
Proof. intros E. destruct E as [oc da n1 n2 n3 n4 n5 n6 ss]. destruct da; apply ok_bits; vm_compute; reflexivity. Qed.

(** NaN and infinite operands *)

Lemma powf_nan_exp : forall {E : Env} x n, is_nan x = false -> sign_bit x = false -> nan n ->
  F32_powf x n = Ok F32_INFINITY \/ F32_powf x n = Ok F32_ZERO.
Proof. intros E x n Nx S Nn. rewrite powf_nonneg by assumption. apply exp_nan, fmul_nan. left. exact Nn. Qed.

Lemma powf_nan_exp_neg : forall {E : Env} x n, flt x F32_ZERO = true -> nan n -> exists r, F32_powf x n = Ok r /\ nan r.
Proof.
  intros E x n L N. pose proof (lt_not_nan x L) as Nx. destruct (neg_facts x Nx L) as [S Z0].
  rewrite powf_neg, (is_integer_nan n N) by assumption. exists f32_NAN. split; [reflexivity|apply NAN_nan].
Qed.

Lemma nan_fge : forall x, nan x -> fge x F32_ZERO = false.
Proof. intros x N. destruct x; try discriminate N. reflexivity. Qed.

Lemma powf_nan_base : forall {E : Env} x n k, nan x -> fin n -> val n = IZR k -> (Rabs (val n) < bpow radix2 32)%R ->
  exists r, F32_powf x n = Ok r /\ is_nan r = false.
Proof.
  intros E x n k N F V B. unfold F32_powf. rewrite (nan_fge x N), (integer_any n k F V B).
  assert (Nw : nan (fmul n (F32_ln (without_sign x)))).
  { apply fmul_nan. right. apply ln_nan. change (without_sign x) with (F32_abs x). unfold nan. rewrite abs_is_nan. exact N. }
  simpl negb. cbv iota. set (p := fmul n (F32_ln (without_sign x))) in *. clearbody p.
  destruct (exp_nan p Nw) as [->| ->]; unfold bind; destruct (is_even n); eexists; (split; [reflexivity|reflexivity]).
Qed.

Lemma powf_inf_base : forall {E : Env} n, F32_powf (f32_inf false) n = Ok F32_INFINITY \/ F32_powf (f32_inf false) n = Ok F32_ZERO.
Proof. intros E n. rewrite powf_nonneg by reflexivity. apply exp_nan, fmul_nan. right. apply ln_inf. Qed.

Lemma powf_neg_zero : forall {E : Env} n, F32_powf (f32_zero true) n = Ok F32_INFINITY \/ F32_powf (f32_zero true) n = Ok F32_ZERO.
Proof.
  intros E n. unfold F32_powf. change (fge (f32_zero true) F32_ZERO) with true. cbv iota.
  apply exp_nan, fmul_nan. right. apply ln_negative. reflexivity.
Qed.

(** ** Panics *)

Lemma powf_panic_iff : forall {E : Env} x n, is_nan x = false -> sign_bit x = false ->
  (F32_powf x n = Panic <-> debug_assertions = true /\ exp_bad (fmul n (F32_ln x))).
Proof. intros E x n N S. rewrite powf_nonneg by assumption. apply exp_panic_iff. Qed.

Lemma powf_no_panic_release : forall {E : Env} x n, debug_assertions = false -> exists r, F32_powf x n = Ok r.
Proof.
  intros E x n D. assert (P : forall p, exists r, F32_exp p = Ok r).
  { intros p. destruct (exp_ok_or_panic p) as [A|A]; [exact A|]. apply exp_panic_iff in A. destruct A as [A _]. congruence. }
  unfold F32_powf. destruct (fge x F32_ZERO); [apply P|]. destruct (is_integer n); [|eexists; reflexivity]. simpl negb. cbv iota.
  destruct (is_even n); [apply P|]. destruct (P (fmul n (F32_ln (without_sign x)))) as [r R]. rewrite R. exists (fneg r). reflexivity.
Qed.

(** ** Counterexamples *)

Lemma powf_err_point : forall {E : Env}, exists x n r, fin x /\ (1 <= val x)%R /\ fin n /\ (-1 <= val n)%R /\ (val n <= 0)%R /\ F32_powf x n = Ok r /\ fin r /\
  (Rabs (val r - Rpower (val x) (val n)) > 0.0023 * Rpower (val x) (val n))%R.
Proof.
  intros E. exists (from_bits 0x402DF854), (from_bits 0xBF316F78), (from_bits 0x3F004E42).
  assert (K : F32_powf (from_bits 0x402DF854) (from_bits 0xBF316F78) = Ok (from_bits 0x3F004E42)).
  { destruct E as [oc da n1 n2 n3 n4 n5 n6 ss]. destruct da; apply ok_bits; vm_compute; reflexivity. }
  rewrite K. lit 0x402DF854. lit 0xBF316F78. lit 0x3F004E42.
  assert (A1 : (val (from_bits 0x402DF854) = 2850325 / 1048576)%R) by (lit 0x402DF854; bpow_lit; lra).
  assert (A2 : (val (from_bits 0xBF316F78) = - (11628408 / 16777216))%R) by (lit 0xBF316F78; bpow_lit; lra).
  assert (A3 : (val (from_bits 0x3F004E42) = 8408642 / 16777216)%R) by (lit 0x3F004E42; bpow_lit; lra).
  split; [reflexivity|]. split; [bpow_lit; lra|]. split; [reflexivity|]. split; [bpow_lit; lra|]. split; [bpow_lit; lra|].
  split; [reflexivity|]. split; [reflexivity|].
  match goal with |- (Rabs (?a - Rpower ?b ?c) > _)%R => replace a with (8408642 / 16777216)%R by (bpow_lit; lra);
    replace b with (2850325 / 1048576)%R by (bpow_lit; lra); replace c with (- (11628408 / 16777216))%R by (bpow_lit; lra) end.
  exact powf_point.
Qed.

(** powf(0.75, 1) = 0.666763, 11% below 0.75. *)
Lemma powf_small_base_point : forall {E : Env}, exists x n r, fin x /\ val x = 0.75%R /\ fin n /\ val n = 1%R /\ F32_powf x n = Ok r /\ fin r /\
  (val r < 0.89 * Rpower (val x) (val n))%R.
Proof.
  intros E. exists (from_bits 0x3F400000), F32_ONE, (from_bits 0x3F2AB102).
  assert (K : F32_powf (from_bits 0x3F400000) F32_ONE = Ok (from_bits 0x3F2AB102)).
  { destruct E as [oc da n1 n2 n3 n4 n5 n6 ss]. destruct da; apply ok_bits; vm_compute; reflexivity. }
  rewrite K. assert (A1 : (val (from_bits 0x3F400000) = 0.75)%R) by (lit 0x3F400000; bpow_lit; lra). rewrite A1, (proj2 one_val).
  split; [reflexivity|]. split; [reflexivity|]. split; [reflexivity|]. split; [reflexivity|]. split; [reflexivity|].
  rewrite Rpower_1 by lra. lit 0x3F2AB102. split; [reflexivity|]. bpow_lit. lra.
Qed.

(** 4294967808 = 2^32 + 512 is an even integer, but the exponent shift wraps at 32 and powf(-1, n) is NaN. *)
Lemma powf_big_integer : forall {E : Env}, exists x n r, fin x /\ val x = (-1)%R /\ fin n /\ val n = IZR 4294967808 /\ F32_powf x n = Ok r /\ nan r.
Proof.
  intros E. exists (fneg F32_ONE), (from_bits 0x4F800001), f32_NAN.
  assert (V : val (from_bits 0x4F800001) = IZR 4294967808) by (lit 0x4F800001; bpow_lit; lra).
  split; [reflexivity|]. split; [rewrite fneg_val, (proj2 one_val); lra|]. split; [reflexivity|]. split; [exact V|].
  split; [|apply NAN_nan]. rewrite powf_neg by (vm_compute; reflexivity).
  replace (is_integer (from_bits 0x4F800001)) with false by (vm_compute; reflexivity). reflexivity.
Qed.

Lemma powf_panic_point : forall {E : Env}, debug_assertions = true -> F32_powf c_2 (from_bits 0x43008000) = Panic.
Proof. intros E D. destruct E as [oc da n1 n2 n3 n4 n5 n6 ss]. simpl in D. subst da. vm_compute. reflexivity. Qed.
