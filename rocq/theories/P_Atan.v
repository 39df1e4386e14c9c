(** * Proofs: atan, atan2 *)

From Coq Require Import ZArith Reals Bool List Lia Lra Psatz.
From Flocq Require Import Core IEEE754.BinarySingleNaN IEEE754.Binary IEEE754.Bits.
From Verif Require Import Base Spec Float F32Lemmas BitLemmas P_Trunc P_Floor Literals ErrLemmas P_RoundEdge
  NanLemmas P_Euclid P_Roots P_Recip P_SumSq P_Stats P_Quat P_Quat2 P_Trig RealBounds RealBounds2.
Open Scope Z_scope.

(** ** Finite results are rounded results; overflow *)

Lemma fadd_fin_val : forall {E : Env} x y, fin x -> fin y -> fin (fadd x y) -> val (fadd x y) = rnd (val x + val y).
Proof.
  intros E x y Hx Hy F.
  pose proof (Bplus_correct 24 128 prec24 emax128 nan_add mode_NE x y Hx Hy) as C.
  destruct (Rlt_bool _ _).
  - destruct C as (C1 & _). exact C1.
  - destruct C as (C1 & _). exfalso. unfold fadd in F. unfold fin, is_finite in F.
    destruct (Bplus _ _ _ _ _ _ x y); simpl in *; try discriminate.
Qed.

Lemma no_overflow : forall r, (Rabs r < bpow radix2 128 - bpow radix2 103)%R -> (Rabs (rnd r) < bpow radix2 128)%R.
Proof.
  assert (P : forall r, (r < bpow radix2 128 - bpow radix2 103)%R -> (rnd r <= bpow radix2 128 - bpow radix2 104)%R).
  { intros r H. unfold rnd.
    assert (U : (bpow radix2 128 - bpow radix2 104 = IZR (2 ^ 24 - 1) * bpow radix2 104)%R).
    { change 128 with (24 + 104). rewrite bpow_plus. change (bpow radix2 24) with 16777216%R. change (IZR (2 ^ 24 - 1)) with 16777215%R. ring. }
    assert (F : fmt (bpow radix2 128 - bpow radix2 104)).
    { rewrite U. apply fmt_scaled; lia. }
    assert (PP : pred radix2 (FLT_exp (-149) 24) (bpow radix2 128) = (bpow radix2 128 - bpow radix2 104)%R).
    { rewrite pred_bpow. reflexivity. }
    apply round_N_le_midp; [apply FLT_exp_valid; reflexivity|exact F|].
    rewrite <- PP at 2. change (SpecFloat.fexp 24 128) with (FLT_exp (-149) 24) || idtac.
    rewrite (succ_pred radix2 (FLT_exp (-149) 24) (bpow radix2 128) (fmt_bpow 128 ltac:(lia))).
    assert (bpow radix2 104 = 2 * bpow radix2 103)%R.
    { change 104 with (1 + 103). rewrite bpow_plus. reflexivity. }
    lra. }
  intros r H. apply Rabs_lt_inv in H. pose proof (P r ltac:(lra)) as A. pose proof (P (- r)%R ltac:(lra)) as B. rewrite rnd_opp in B.
  pose proof (bpow_gt_0 radix2 104). apply Rabs_lt. lra.
Qed.

Lemma fmul_over : forall {E : Env} x y, fin x -> fin y -> (bpow radix2 128 <= Rabs (val x * val y))%R ->
  fmul x y = f32_inf (xorb (sign_bit x) (sign_bit y)).
Proof.
  intros E x y Fx Fy H.
  pose proof (Bmult_correct 24 128 prec24 emax128 nan_mul mode_NE x y) as C.
  rewrite Rlt_bool_false in C.
  - fold (fmul x y) in C. fold (sign_bit x) (sign_bit y) in C. unfold binary_overflow in C. simpl overflow_to_inf in C. cbv iota in C.
    destruct (fmul x y) as [s|s|s p K|s m e K]; simpl in C; try discriminate. injection C as ->. reflexivity.
  - change (bpow radix2 128 <= Rabs (rnd (val x * val y)))%R.
    destruct (Rle_or_lt 0 (val x * val y)) as [S|S].
    + rewrite Rabs_pos_eq in H by exact S. rewrite Rabs_pos_eq by (apply rnd_nonneg; exact S).
      rewrite <- (rnd_fmt (bpow radix2 128)) by (apply fmt_bpow; lia). apply rnd_le. exact H.
    + rewrite Rabs_left in H by exact S. rewrite <- Rabs_Ropp, <- rnd_opp. rewrite Rabs_pos_eq by (apply rnd_nonneg; lra).
      rewrite <- (rnd_fmt (bpow radix2 128)) by (apply fmt_bpow; lia). apply rnd_le. exact H.
Qed.

Lemma fmul_fin_not_nan : forall {E : Env} x y, fin x -> fin y -> is_nan (fmul x y) = false.
Proof.
  intros E x y Fx Fy. pose proof (Bmult_correct 24 128 prec24 emax128 nan_mul mode_NE x y) as M.
  fold (fmul x y) in M. destruct (Rlt_bool _ _).
  - destruct M as (_ & M & _). unfold fin, is_finite in *. rewrite Fx, Fy in M.
    destruct (fmul x y); try reflexivity; discriminate.
  - destruct (fmul x y); simpl in M; try reflexivity; discriminate.
Qed.

Lemma fadd_fin_not_nan : forall {E : Env} x y, fin x -> fin y -> is_nan (fadd x y) = false.
Proof.
  intros E x y Fx Fy. pose proof (Bplus_correct 24 128 prec24 emax128 nan_add mode_NE x y Fx Fy) as M.
  fold (fadd x y) in M. destruct (Rlt_bool _ _).
  - destruct M as (_ & M & _). destruct (fadd x y); try reflexivity; discriminate.
  - destruct M as (M & _). destruct (fadd x y); simpl in M; try reflexivity; discriminate.
Qed.

(** ** Inserting the sign *)

Lemma land_sign : forall x, Z.land SIGN_MASK (to_bits x) = if sign_bit x then 2 ^ 31 else 0.
Proof.
  intros x. rewrite Z.land_comm. pose proof (to_bits_range x) as R.
  pose proof (land_shift (to_bits x) 1 31 ltac:(lia)) as L. rewrite Z.mul_1_l in L. change SIGN_MASK with (2 ^ 31). rewrite L.
  rewrite sign_bit_ge. destruct (2 ^ 31 <=? to_bits x) eqn:C.
  - apply Z.leb_le in C. replace (to_bits x / 2 ^ 31) with 1; [reflexivity|].
    apply Z.div_unique with (to_bits x - 2 ^ 31); lia.
  - apply Z.leb_gt in C. rewrite Z.div_small by lia. reflexivity.
Qed.

Lemma or_sign : forall s q, from_bits (Z.lor (if s : bool then 2 ^ 31 else 0) (to_bits q)) = with_sign (s || sign_bit q) q.
Proof.
  intros s q. destruct s.
  - pose proof (to_bits_range q) as R. rewrite orb_true_l.
    assert (W : to_bits (with_sign true q) = Z.lor (2 ^ 31) (to_bits q)).
    { destruct (with_sign_fields true q) as (A & B & C). pose proof (to_bits_range (with_sign true q)) as RW.
      rewrite (mkbits_eq _ RW), A, B, C.
      rewrite (mkbits_eq _ R) at 3. unfold mkbits. pose proof (bman_range (to_bits q)). pose proof (bexp_range (to_bits q)).
      destruct (bits_split _ R) as [_ [S|S]]; rewrite S.
      - rewrite Z.lor_comm. replace (0 * 2 ^ 31 + bexp (to_bits q) * 2 ^ 23 + bman (to_bits q)) with (bexp (to_bits q) * 2 ^ 23 + bman (to_bits q)) by lia.
        pose proof (lor_shift (bexp (to_bits q) * 2 ^ 23 + bman (to_bits q)) 1 31 ltac:(lia) ltac:(lia)) as L. rewrite Z.mul_1_l in L. rewrite L. lia.
      - pose proof (lor_shift (bexp (to_bits q) * 2 ^ 23 + bman (to_bits q)) 1 31 ltac:(lia) ltac:(lia)) as L. rewrite Z.mul_1_l in L.
        replace (1 * 2 ^ 31 + bexp (to_bits q) * 2 ^ 23 + bman (to_bits q)) with (bexp (to_bits q) * 2 ^ 23 + bman (to_bits q) + 2 ^ 31) by lia.
        rewrite <- L at 2. rewrite Z.lor_comm, <- Z.lor_assoc, Z.lor_diag. lia. }
    rewrite <- W. apply from_to_bits.
  - rewrite Z.lor_0_l, from_to_bits. simpl. destruct q; reflexivity.
Qed.

(** ** The quotient *)

Definition quadf {E : Env} (a b c : f32) : f32 := fdiv (fadd b c) (fadd (fadd a b) (fadd b c)).

Lemma quad_range : forall A B C, (0 <= A -> 0 <= B -> 0 <= C -> 0 < A + B + (B + C) -> 0 <= quad A B C <= 1)%R.
Proof.
  intros A B C HA HB HC HD. unfold quad. split.
  - apply Rmult_le_pos; [lra|apply Rlt_le, Rinv_0_lt_compat; exact HD].
  - apply Rmult_le_reg_r with (A + B + (B + C))%R; [exact HD|]. unfold Rdiv. rewrite Rmult_assoc, Rinv_l by lra. lra.
Qed.

Lemma add_pos_rel : forall {E : Env} x y, fin x -> fin y -> (0 <= val x)%R -> (0 <= val y)%R -> fin (fadd x y) ->
  ((val x + val y) * (1 - u24) <= val (fadd x y) <= (val x + val y) * (1 + u24))%R.
Proof.
  intros E x y Fx Fy Px Py F. rewrite (fadd_fin_val x y Fx Fy F).
  pose proof (rnd_add_rel (val x) (val y) (fmt_val x) (fmt_val y)) as R. rewrite (Rabs_pos_eq (val x + val y)) in R by lra.
  apply Rabs_le_inv in R. lra.
Qed.

Lemma quad_core : forall {E : Env} a b c A B C,
  fin a -> fin b -> fin c ->
  (0 <= val a)%R -> (0 <= val b)%R -> (0 <= val c)%R -> (0 <= A)%R -> (0 <= B)%R -> (0 <= C)%R ->
  fin (fadd b c) -> fin (fadd a b) -> fin (fadd (fadd a b) (fadd b c)) ->
  let D := (A + B + (B + C))%R in (0 < D)%R ->
  (Rabs (val a - A) <= 2 * u24 * D)%R -> (Rabs (val b - B) <= 2 * u24 * D)%R -> (Rabs (val c - C) <= 2 * u24 * D)%R ->
  fin (quadf a b c) /\ (0 <= val (quadf a b c) <= 1)%R /\ (Rabs (val (quadf a b c) - quad A B C) <= 20 * u24)%R /\
  (val b = 0 -> val c = 0 -> val (quadf a b c) = 0)%R.
Proof.
  intros E a b c A B C Fa Fb Fc Pa Pb Pc PA PB PC Fn Fs Fd D PD Ea Eb Ec.
  pose proof (add_pos_rel b c Fb Fc Pb Pc Fn) as N. pose proof (add_pos_rel a b Fa Fb Pa Pb Fs) as S.
  assert (N0 : (0 <= val (fadd b c))%R) by (rewrite (fadd_fin_val b c Fb Fc Fn); apply rnd_nonneg; lra).
  assert (S0 : (0 <= val (fadd a b))%R) by (rewrite (fadd_fin_val a b Fa Fb Fs); apply rnd_nonneg; lra).
  pose proof (add_pos_rel _ _ Fs Fn S0 N0 Fd) as T.
  assert (ND : (val (fadd b c) <= val (fadd (fadd a b) (fadd b c)))%R).
  { rewrite (fadd_fin_val _ _ Fs Fn Fd). rewrite <- (rnd_fmt (val (fadd b c)) (fmt_val _)) at 1. apply rnd_le. lra. }
  apply Rabs_le_inv in Ea. apply Rabs_le_inv in Eb. apply Rabs_le_inv in Ec.
  set (n := val (fadd b c)) in *. set (s := val (fadd a b)) in *. set (d := val (fadd (fadd a b) (fadd b c))) in *.
  assert (Hn : (B + C - 5.1 * u24 * D <= n <= B + C + 5.1 * u24 * D)%R).
  { unfold u24, D in *. lra. }
  assert (Hs : (A + B - 5.1 * u24 * D <= s <= A + B + 5.1 * u24 * D)%R).
  { unfold u24, D in *. lra. }
  assert (Hd : (D - 11.3 * u24 * D <= d <= D + 11.3 * u24 * D)%R).
  { unfold u24, D in *. lra. }
  assert (d0 : (0 < d)%R) by (unfold u24 in *; lra).
  assert (Q : (0 <= n / d <= 1)%R).
  { split; [apply Rmult_le_pos; [exact N0|apply Rlt_le, Rinv_0_lt_compat; exact d0]|].
    apply Rmult_le_reg_r with d; [exact d0|]. unfold Rdiv. rewrite Rmult_assoc, Rinv_l by lra. lra. }
  destruct (fdiv_R (fadd b c) (fadd (fadd a b) (fadd b c)) Fn Fd) as [F V].
  { fold d. lra. }
  { apply (small_lt_128 0); [lia|]. fold n d. change (bpow radix2 0) with 1%R. apply Rabs_le. lra. }
  fold n d in V. split; [exact F|].
  assert (V1 : (0 <= rnd (n / d) <= 1)%R).
  { split; [apply rnd_nonneg; lra|]. rewrite <- (rnd_fmt 1). - apply rnd_le; lra. - apply (fmt_bpow 0); lia. }
  unfold quadf. rewrite V. split; [exact V1|].
  pose proof (rnd_err_mixed (n / d)) as R. rewrite u24_eq in R. fold eta in R.
  assert (R' : (Rabs (rnd (n / d) - n / d) <= 2 * u24)%R).
  { eapply Rle_trans; [exact R|]. rewrite (Rabs_pos_eq (n / d)) by lra. pose proof eta_tiny. unfold u24 in *. lra. }
  assert (K : (Rabs (n / d - quad A B C) <= 17 * u24)%R).
  { unfold quad. fold D. replace (n / d - (B + C) / D)%R with ((n * D - (B + C) * d) / (d * D))%R by (field; split; lra).
    assert (NB : (0 <= B + C <= D)%R) by (unfold D; lra).
    assert (X : (Rabs (n * D - (B + C) * d) <= 16.4 * u24 * D * D)%R).
    { replace (n * D - (B + C) * d)%R with ((n - (B + C)) * D - (B + C) * (d - D))%R by ring.
      unfold Rminus at 1. eapply Rle_trans; [apply Rabs_triang|]. rewrite Rabs_Ropp, !Rabs_mult.
      rewrite (Rabs_pos_eq D) by lra. rewrite (Rabs_pos_eq (B + C)) by lra.
      assert (Rabs (n - (B + C)) * D <= 5.1 * u24 * D * D)%R.
      { apply Rmult_le_compat_r; [lra|]. apply Rabs_le. lra. }
      assert ((B + C) * Rabs (d - D) <= D * (11.3 * u24 * D))%R.
      { apply Rmult_le_compat; [lra|apply Rabs_pos|lra|]. apply Rabs_le. lra. }
      lra. }
    unfold Rdiv. rewrite Rabs_mult, Rabs_inv, (Rabs_pos_eq (d * D)) by (apply Rmult_le_pos; lra).
    assert (dD : (0 < d * D)%R) by (apply Rmult_lt_0_compat; lra).
    apply Rmult_le_reg_r with (d * D)%R; [exact dD|]. rewrite Rmult_assoc, Rinv_l, Rmult_1_r by lra.
    eapply Rle_trans; [exact X|].
    assert (0.99 * D <= d)%R by (unfold u24 in *; lra).
    assert (0.99 * D * D <= d * D)%R by (apply Rmult_le_compat_r; lra).
    unfold u24 in *. lra. }
  split.
  2:{ intros Zb Zc. assert (Zn : n = 0%R).
      { unfold n. rewrite (fadd_fin_val b c Fb Fc Fn), Zb, Zc, Rplus_0_r. apply rnd_fmt, generic_format_0. }
      rewrite Zn. unfold Rdiv. rewrite Rmult_0_l. apply rnd_fmt, generic_format_0. }
  replace (rnd (n / d) - quad A B C)%R with ((rnd (n / d) - n / d) + (n / d - quad A B C))%R by ring.
  eapply Rle_trans; [apply Rabs_triang|]. unfold u24 in *. lra.
Qed.

(** ** atan *)

Lemma atan_norm_eq : forall {E : Env} x,
  F32_atan_norm x = with_sign (sign_bit x || sign_bit (quadf F32_ONE (F32_abs (fmul c_B x)) (fmul x x)))
    (quadf F32_ONE (F32_abs (fmul c_B x)) (fmul x x)).
Proof. intros E x. unfold F32_atan_norm. rewrite land_sign. rewrite or_sign. reflexivity. Qed.

Lemma below_2p64 : forall x, fin x -> (Rabs (val x) < bpow radix2 64)%R -> (Rabs (val x) <= bpow radix2 64 - bpow radix2 40)%R.
Proof.
  intros x Fx H. rewrite <- abs_val in *.
  assert (P : pred radix2 (FLT_exp (-149) 24) (bpow radix2 64) = (bpow radix2 64 - bpow radix2 40)%R).
  { rewrite pred_bpow. reflexivity. }
  rewrite <- P. apply pred_ge_gt; [apply FLT_exp_valid; reflexivity|apply fmt_val|apply fmt_bpow; lia|exact H].
Qed.

Lemma sq_below : forall x, fin x -> (Rabs (val x) < bpow radix2 64)%R ->
  (0 <= val x * val x <= bpow radix2 128 - bpow radix2 105 + bpow radix2 80)%R.
Proof.
  intros x Fx H. pose proof (below_2p64 x Fx H) as B. pose proof (Rabs_pos (val x)) as P.
  split; [apply Rle_0_sqr|]. replace (val x * val x)%R with (Rabs (val x) * Rabs (val x))%R.
  - apply Rle_trans with ((bpow radix2 64 - bpow radix2 40) * (bpow radix2 64 - bpow radix2 40))%R; [apply Rmult_le_compat; assumption|].
    right. replace (bpow radix2 128) with (bpow radix2 64 * bpow radix2 64)%R by (rewrite <- bpow_plus; reflexivity).
    replace (bpow radix2 80) with (bpow radix2 40 * bpow radix2 40)%R by (rewrite <- bpow_plus; reflexivity).
    replace (bpow radix2 105) with (2 * (bpow radix2 64 * bpow radix2 40))%R by (rewrite <- bpow_plus; change 105 with (1 + 104); rewrite (bpow_plus radix2 1 104); reflexivity).
    ring.
  - rewrite <- Rabs_mult. apply Rabs_pos_eq, Rle_0_sqr.
Qed.

Lemma rnd_err_top : forall r, (Rabs r <= bpow radix2 128)%R -> (Rabs (rnd r - r) <= bpow radix2 103)%R.
Proof. intros r H. exact (rnd_err 128 r ltac:(lia) H). Qed.

Lemma atan_parts : forall {E : Env} x, fin x -> (Rabs (val x) < bpow radix2 64)%R ->
  let a := F32_ONE in let b := F32_abs (fmul c_B x) in let c := fmul x x in
  let t := Rabs (val x) in
  fin b /\ fin c /\ (0 <= val b)%R /\ (0 <= val c)%R /\
  (Rabs (val b - cB * t) <= u24 * (cB * t) + eta)%R /\ (Rabs (val c - t * t) <= u24 * (t * t) + eta)%R /\
  fin (fadd b c) /\ fin (fadd a b) /\ fin (fadd (fadd a b) (fadd b c)).
Proof.
  intros E x Fx H a b c t. destruct c_B_val as [FB VB]. destruct one_val as [F1 V1].
  pose proof (Rabs_pos (val x)) as P. fold t in P, H. pose proof (sq_below x Fx H) as SQ.
  assert (p64 : (bpow radix2 64 = 18446744073709551616)%R) by reflexivity.
  assert (p103 : (bpow radix2 103 = 8388608 * bpow radix2 80)%R) by (change 103 with (23 + 80); rewrite bpow_plus; reflexivity).
  assert (p105 : (bpow radix2 105 = 4 * bpow radix2 103)%R) by (change 105 with (2 + 103); rewrite bpow_plus; reflexivity).
  assert (p80 : (bpow radix2 80 = 65536 * bpow radix2 64)%R) by (change 80 with (16 + 64); rewrite bpow_plus; reflexivity).
  assert (p128 : (bpow radix2 128 = 33554432 * bpow radix2 103)%R) by (change 128 with (25 + 103); rewrite bpow_plus; reflexivity).
  assert (TT : (val x * val x = t * t)%R). { unfold t. rewrite <- Rabs_mult. symmetry. apply Rabs_pos_eq, Rle_0_sqr. }
  (* b *)
  assert (MB : (Rabs (val c_B * val x) = cB * t)%R).
  { rewrite VB, Rabs_mult, Rabs_pos_eq by lra. reflexivity. }
  destruct (fmul_R c_B x FB Fx) as [B1 B2].
  { apply (small_lt_128 64); [lia|]. rewrite MB. unfold cB. lra. }
  assert (Fb : fin b) by (unfold b, fin; rewrite abs_fin; exact B1).
  assert (Pb : (0 <= val b)%R) by (unfold b; rewrite abs_val; apply Rabs_pos).
  assert (Eb : (Rabs (val b - cB * t) <= u24 * (cB * t) + eta)%R).
  { unfold b. rewrite abs_val, <- MB. eapply Rle_trans; [apply Rabs_triang_inv2|]. rewrite B2.
    pose proof (rnd_err_mixed (val c_B * val x)) as R. rewrite u24_eq in R. exact R. }
  (* c *)
  assert (C0 : (Rabs (val x * val x) <= bpow radix2 128)%R) by (rewrite Rabs_pos_eq by apply SQ; lra).
  pose proof (rnd_err_top _ C0) as RC. apply Rabs_le_inv in RC.
  destruct (fmul_R x x Fx Fx) as [C1 C2].
  { apply no_overflow. rewrite Rabs_pos_eq by apply SQ. lra. }
  assert (Pc : (0 <= val c)%R) by (unfold c; rewrite C2; apply rnd_nonneg; apply SQ).
  assert (Ec : (Rabs (val c - t * t) <= u24 * (t * t) + eta)%R).
  { unfold c. rewrite C2, <- TT. pose proof (rnd_err_mixed (val x * val x)) as R. rewrite u24_eq in R.
    rewrite (Rabs_pos_eq (val x * val x)) in R by apply SQ. exact R. }
  assert (Mc : (val c <= bpow radix2 128 - 3 * bpow radix2 103 + bpow radix2 80)%R) by (unfold c; rewrite C2; lra).
  assert (Mb : (val b <= bpow radix2 64)%R).
  { pose proof (Rabs_le_inv _ _ Eb) as Eb'. pose proof eta_tiny. unfold cB, u24 in *. lra. }
  (* sums *)
  assert (N : fin (fadd b c) /\ val (fadd b c) = rnd (val b + val c)).
  { apply fadd_R; [exact Fb|exact C1|]. apply no_overflow. rewrite Rabs_pos_eq by lra. lra. }
  destruct N as [N1 N2].
  assert (S : fin (fadd a b) /\ val (fadd a b) = rnd (val a + val b)).
  { apply fadd_R; [exact F1|exact Fb|]. apply no_overflow. unfold a. rewrite V1, Rabs_pos_eq by lra. lra. }
  destruct S as [S1 S2].
  assert (Mn : (0 <= val (fadd b c) <= bpow radix2 128 - 2 * bpow radix2 103 + 2 * bpow radix2 80)%R).
  { rewrite N2. split; [apply rnd_nonneg; lra|].
    assert (A : (Rabs (val b + val c) <= bpow radix2 128)%R) by (rewrite Rabs_pos_eq by lra; lra).
    pose proof (rnd_err_top _ A) as R. apply Rabs_le_inv in R. lra. }
  assert (Ms : (0 <= val (fadd a b) <= bpow radix2 65)%R).
  { rewrite S2. unfold a in *. split; [apply rnd_nonneg; lra|].
    rewrite <- (rnd_fmt (bpow radix2 65)) by (apply fmt_bpow; lia). apply rnd_le.
    replace (bpow radix2 65) with (2 * bpow radix2 64)%R by (change 65 with (1 + 64); rewrite bpow_plus; reflexivity). lra. }
  assert (p65 : (bpow radix2 65 = 2 * bpow radix2 64)%R) by (change 65 with (1 + 64); rewrite bpow_plus; reflexivity).
  assert (D : fin (fadd (fadd a b) (fadd b c))).
  { apply fadd_R; [exact S1|exact N1|]. apply no_overflow. rewrite Rabs_pos_eq by lra. lra. }
  split; [exact Fb|]. split; [exact C1|]. split; [exact Pb|]. split; [exact Pc|]. split; [exact Eb|]. split; [exact Ec|].
  split; [exact N1|]. split; [exact S1|exact D].
Qed.

Lemma quadf_one : forall {E : Env} x, fin x -> (Rabs (val x) < bpow radix2 64)%R ->
  let q := quadf F32_ONE (F32_abs (fmul c_B x)) (fmul x x) in let t := Rabs (val x) in
  fin q /\ sign_bit q = false /\ (0 <= val q <= 1)%R /\ (Rabs (val q - quad 1 (cB * t) (t * t)) <= 20 * u24)%R.
Proof.
  intros E x Fx H q t. destruct one_val as [F1 V1]. pose proof (Rabs_pos (val x)) as P. fold t in P.
  destruct (atan_parts x Fx H) as (Fb & Fc & Pb & Pc & Eb & Ec & Fn & Fs & Fd). fold t in Eb, Ec.
  pose proof eta_tiny as ET. assert (T2 : (0 <= t * t)%R) by (apply Rmult_le_pos; assumption).
  destruct (quad_core F32_ONE _ _ 1 (cB * t) (t * t) F1 Fb Fc) as (Fq & Rq & Dq & _); trivial.
  - rewrite V1; lra.
  - lra.
  - unfold cB; lra.
  - unfold cB; lra.
  - rewrite V1. unfold Rminus. rewrite Rplus_opp_r, Rabs_R0. unfold u24, cB; lra.
  - eapply Rle_trans; [exact Eb|]. unfold u24, cB in *; lra.
  - eapply Rle_trans; [exact Ec|]. unfold u24, cB in *; lra.
  - split; [exact Fq|]. split; [|split; assumption].
    apply fin_nonneg; [|exact Fq]. unfold quadf.
    apply fdiv_nonneg; [apply fadd_nonneg; [apply abs_nonneg|apply sq_nonneg]|].
    apply fin_nonneg; [|exact Fd]. repeat apply fadd_nonneg; try apply abs_nonneg; try apply sq_nonneg. right. reflexivity.
Qed.

Lemma atan_neg_abs : forall v, (v < 0 -> atan v = - atan (Rabs v))%R.
Proof. intros v H. rewrite Rabs_left by exact H. rewrite atan_opp. ring. Qed.

Lemma sign_val : forall x, fin x -> (if sign_bit x then val x <= 0 else 0 <= val x)%R.
Proof.
  intros x F. pose proof (with_sign_val (sign_bit x) x) as W. replace (with_sign (sign_bit x) x) with x in W by (destruct x; reflexivity).
  pose proof (Rabs_pos (val x)). destruct (sign_bit x); lra.
Qed.

Lemma sign_abs : forall x, fin x -> val x = ((if sign_bit x then -1 else 1) * Rabs (val x))%R.
Proof. intros x F. rewrite <- with_sign_val. f_equal. destruct x; reflexivity. Qed.

Lemma with_sign_fin : forall s x, is_finite (with_sign s x) = is_finite x.
Proof. intros s x. destruct x; reflexivity. Qed.

Lemma atan_norm_acc : forall {E : Env} x, fin x -> (Rabs (val x) < bpow radix2 64)%R ->
  let q := F32_atan_norm x in
  fin q /\ sign_bit q = sign_bit x /\ (Rabs (val q) <= 1)%R /\ (Rabs (PI / 2 * val q - atan (val x)) <= 0.00283)%R.
Proof.
  intros E x Fx H q. destruct (quadf_one x Fx H) as (Fq & Sq & Rq & Dq).
  unfold q. rewrite atan_norm_eq, Sq, orb_false_r. set (p := quadf _ _ _) in *. set (t := Rabs (val x)) in *.
  split; [unfold fin; rewrite with_sign_fin; exact Fq|]. split; [destruct p; reflexivity|].
  rewrite with_sign_val, (Rabs_pos_eq (val p)) by lra.
  assert (A : (Rabs (PI / 2 * val p - atan t) <= 0.00283)%R).
  { pose proof (atan_quad t (Rabs_pos _)) as Q.
    replace (PI / 2 * val p - atan t)%R with (PI / 2 * (val p - quad 1 (cB * t) (t * t)) + (PI / 2 * quad 1 (cB * t) (t * t) - atan t))%R by ring.
    eapply Rle_trans; [apply Rabs_triang|]. rewrite Rabs_mult. pose proof PI_bounds as PB. rewrite (Rabs_pos_eq (PI / 2)) by lra.
    assert (PI / 2 * Rabs (val p - quad 1 (cB * t) (t * t)) <= 1.6 * (20 * u24))%R by (apply Rmult_le_compat; try lra; apply Rabs_pos).
    unfold u24 in *. lra. }
  split; [destruct (sign_bit x); apply Rabs_le; lra|].
  rewrite (sign_abs x Fx). fold t. destruct (sign_bit x).
  - replace (-1 * t)%R with (- t)%R by ring. rewrite atan_opp. rewrite <- Rabs_Ropp.
    replace (- (PI / 2 * (-1 * val p) - - atan t))%R with (PI / 2 * val p - atan t)%R by ring. exact A.
  - rewrite !Rmult_1_l. exact A.
Qed.

Lemma atan_acc : forall {E : Env} x, fin x -> (Rabs (val x) < bpow radix2 64)%R ->
  fin (F32_atan x) /\ sign_bit (F32_atan x) = sign_bit x /\ (Rabs (val (F32_atan x)) <= val c_FRAC_PI_2)%R /\
  (Rabs (val (F32_atan x) - atan (val x)) <= 0.00284)%R.
Proof.
  intros E x Fx H. destruct (atan_norm_acc x Fx H) as (Fq & Sq & Bq & Dq). set (q := F32_atan_norm x) in *.
  unfold F32_atan. fold q. destruct c_FRAC_PI_2_val as [Fp Vp]. 
  assert (M : (Rabs (val c_FRAC_PI_2 * val q) <= val c_FRAC_PI_2)%R).
  { rewrite Rabs_mult, (Rabs_pos_eq (val c_FRAC_PI_2)) by (rewrite Vp; lra). rewrite Vp in *. lra. }
  destruct (fmul_R c_FRAC_PI_2 q Fp Fq) as [A B].
  { apply (small_lt_128 1); [lia|]. change (bpow radix2 1) with 2%R. rewrite Vp in *. lra. }
  split; [exact A|]. split.
  { rewrite fmul_sign by (apply fin_not_nan; exact A). rewrite Sq. assert (S : sign_bit c_FRAC_PI_2 = false) by (vm_compute; reflexivity). rewrite S. apply xorb_false_l. }
  assert (Mr : (Rabs (rnd (val c_FRAC_PI_2 * val q)) <= val c_FRAC_PI_2)%R).
  { apply Rabs_le_inv in M. apply Rabs_le. split.
    - rewrite <- (rnd_fmt (- val c_FRAC_PI_2)) by (apply fmt_opp, fmt_val). apply rnd_le. lra.
    - rewrite <- (rnd_fmt (val c_FRAC_PI_2)) at 2 by apply fmt_val. apply rnd_le. lra. }
  rewrite B. split; [exact Mr|].
  pose proof (rnd_err_mixed (val c_FRAC_PI_2 * val q)) as R. rewrite u24_eq in R. fold eta in R. pose proof eta_tiny as ET.
  pose proof PI_bounds as PB.
  replace (rnd (val c_FRAC_PI_2 * val q) - atan (val x))%R with
    ((rnd (val c_FRAC_PI_2 * val q) - val c_FRAC_PI_2 * val q) + ((val c_FRAC_PI_2 - PI / 2) * val q + (PI / 2 * val q - atan (val x))))%R by ring.
  eapply Rle_trans; [apply Rabs_triang|]. pose proof (Rabs_triang ((val c_FRAC_PI_2 - PI / 2) * val q) (PI / 2 * val q - atan (val x))) as T.
  assert (Rabs ((val c_FRAC_PI_2 - PI / 2) * val q) <= 0.0000001 * 1)%R.
  { rewrite Rabs_mult. apply Rmult_le_compat; try apply Rabs_pos; [|exact Bq]. rewrite Vp. apply Rabs_le. lra. }
  rewrite Vp in *. unfold u24 in *. lra.
Qed.

(** Oddness, bit for bit. *)
Lemma atan_norm_odd : forall {E : Env} x, fin x -> (Rabs (val x) < bpow radix2 64)%R ->
  F32_atan_norm (fneg x) = fneg (F32_atan_norm x) /\ F32_atan (fneg x) = fneg (F32_atan x).
Proof.
  intros E x Fx H. destruct (quadf_one x Fx H) as (Fq & Sq & _).
  assert (Fx' : fin (fneg x)) by (apply fneg_fin; exact Fx).
  assert (H' : (Rabs (val (fneg x)) < bpow radix2 64)%R) by (rewrite fneg_val, Rabs_Ropp; exact H).
  destruct (atan_parts x Fx H) as (Fb & Fc & _). destruct (atan_parts _ Fx' H') as (Fb' & Fc' & _).
  assert (C : fmul (fneg x) (fneg x) = fmul x x).
  { apply fmul_ext; trivial; [rewrite fneg_val; ring|rewrite !xorb_nilpotent; reflexivity]. }
  assert (B : F32_abs (fmul c_B (fneg x)) = F32_abs (fmul c_B x)).
  { destruct (fmul_fneg_r c_B x) as [Q|[N _]].
    - rewrite Q, !abs_with_sign. destruct (fmul c_B x); reflexivity.
    - apply abs_nan in N. unfold nan in N. rewrite (fin_not_nan _ Fb') in N. discriminate. }
  assert (A : F32_atan_norm (fneg x) = fneg (F32_atan_norm x)).
  { rewrite !atan_norm_eq, B, C, Sq, !orb_false_r, fneg_sign. destruct (quadf _ _ _); destruct (sign_bit x); reflexivity || idtac.
    all: destruct Fq; discriminate || reflexivity. }
  split; [exact A|]. unfold F32_atan. rewrite A.
  destruct (fmul_fneg_r c_FRAC_PI_2 (F32_atan_norm x)) as [Q|[N _]]; [exact Q|].
  destruct (atan_acc (fneg x) Fx' H') as (F & _). unfold F32_atan in F. rewrite A in F.
  unfold nan in N. rewrite (fin_not_nan _ F) in N. discriminate.
Qed.

(** NaN from 2^64 on. *)
Lemma fadd_inf_r : forall {E : Env} y, is_nan y = false -> sign_bit y = false -> fadd y (f32_inf false) = f32_inf false.
Proof. intros E y N S. destruct y as [s|s|s p K|s m e K]; simpl in *; try discriminate; subst; reflexivity. Qed.

Lemma nan_with_sign : forall s x, is_nan (with_sign s x) = is_nan x.
Proof. intros s x. destruct x; reflexivity. Qed.

Lemma atan_overflow : forall {E : Env} x, (fin x -> (bpow radix2 64 <= Rabs (val x))%R) ->
  nan (F32_atan_norm x) /\ nan (F32_atan x).
Proof.
  intros E x H.
  assert (G : nan (F32_atan_norm x)).
  { rewrite atan_norm_eq. unfold nan. rewrite nan_with_sign. unfold quadf.
    destruct (is_nan x) eqn:N.
    - apply fdiv_nan. left. apply fadd_nan. right. apply fmul_nan. left. exact N.
    - assert (C : fmul x x = f32_inf false).
      { destruct (is_finite x) eqn:F.
        - rewrite fmul_over; trivial; [rewrite xorb_nilpotent; reflexivity|]. rewrite Rabs_mult.
          specialize (H F). replace (bpow radix2 128) with (bpow radix2 64 * bpow radix2 64)%R by (rewrite <- bpow_plus; reflexivity).
          apply Rmult_le_compat; trivial; apply bpow_ge_0.
        - destruct x as [s|s|s p K|s m e K]; try discriminate. destruct s; reflexivity. }
      rewrite C. 
      assert (NB : is_nan (F32_abs (fmul c_B x)) = false).
      { rewrite abs_is_nan. destruct (is_finite x) eqn:F.
        - apply fmul_fin_not_nan; [reflexivity|exact F].
        - destruct x as [s|s|s p K|s m e K]; try discriminate. destruct s; reflexivity. }
      rewrite (fadd_inf_r (F32_abs (fmul c_B x))) by (exact NB || apply abs_sign).
      assert (Q : exists z, is_nan z = false /\ sign_bit z = false /\ z = fadd F32_ONE (F32_abs (fmul c_B x))).
      { assert (P : nonneg (fadd F32_ONE (F32_abs (fmul c_B x)))) by (apply fadd_nonneg; [right; reflexivity|apply abs_nonneg]).
        assert (NN : is_nan (fadd F32_ONE (F32_abs (fmul c_B x))) = false).
        { destruct (is_finite (F32_abs (fmul c_B x))) eqn:FB.
          - apply fadd_fin_not_nan; [reflexivity|exact FB].
          - pose proof (abs_sign (fmul c_B x)) as AS. destruct (F32_abs (fmul c_B x)) as [s|s|s p K|s m e K]; try discriminate.
            destruct s; [discriminate|reflexivity]. }
        eexists. split; [exact NN|split; [|reflexivity]].
        destruct P as [P|P]; [unfold nan in P; congruence|exact P]. }
      destruct Q as (z & Z1 & Z2 & <-). rewrite (fadd_inf_r z Z1 Z2). refine (build_nan_nan _). }
  split; [exact G|]. apply fmul_nan. right. exact G.
Qed.

Lemma atan_002_wrong : forall {E : Env}, exists x, val x = 0.5625%R /\ fin x /\ fin (F32_atan x) /\
  (Rabs (val (F32_atan x) - atan (val x)) > 0.0028)%R.
Proof.
  intros E. exists (from_bits 0x3F100000).
  assert (R : F32_atan (from_bits 0x3F100000) = from_bits 0x3F03E546) by (apply to_bits_inj; vm_compute; reflexivity).
  rewrite R. lit 0x3F100000. lit 0x3F03E546. split; [bpow_lit; lra|]. split; [reflexivity|]. split; [reflexivity|].
  bpow_lit. replace (9437184 * / 16777216)%R with (9 / 16)%R by lra. pose proof atan_at_0_5625 as A. rewrite Rabs_pos_eq; lra.
Qed.
