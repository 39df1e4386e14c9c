(** * Proofs: scaling by powers of two *)

From Coq Require Import ZArith Reals Bool List Lia Lra Psatz.
From Flocq Require Import Core Plus_error IEEE754.BinarySingleNaN IEEE754.Binary IEEE754.Bits.
From Verif Require Import Base Spec SpecMore Float F32Lemmas BitLemmas P_Trunc P_Floor Literals ErrLemmas P_RoundEdge NanLemmas P_Euclid P_Roots P_InvSqrt P_Exact P_Recip P_Atan.
Open Scope Z_scope.

Notation flx := (FLX_exp 24).

Lemma round_flx_scale : forall k r, (round radix2 flx ZnearestE (bpow radix2 k * r) = bpow radix2 k * round radix2 flx ZnearestE r)%R.
Proof.
  intros k r. destruct (Req_dec r 0) as [Z|N].
  { rewrite Z, Rmult_0_r, round_0 by apply valid_rnd_N. ring. }
  unfold round, scaled_mantissa, cexp, F2R. simpl Fnum. simpl Fexp. unfold FLX_exp.
  rewrite (Rmult_comm (bpow radix2 k) r), mag_mult_bpow by exact N.
  replace (r * bpow radix2 k * bpow radix2 (- (mag radix2 r + k - 24)))%R with (r * bpow radix2 (- (mag radix2 r - 24)))%R.
  2: { rewrite Rmult_assoc, <- bpow_plus. f_equal. f_equal. ring. }
  replace (mag radix2 r + k - 24) with (k + (mag radix2 r - 24)) by ring. rewrite bpow_plus. ring.
Qed.

Lemma rnd_flx : forall r, (bpow radix2 (-126) <= Rabs r)%R -> rnd r = round radix2 flx ZnearestE r.
Proof. intros r H. unfold rnd. apply round_FLT_FLX. exact H. Qed.

Lemma Rabs_scale : forall k r, (Rabs (bpow radix2 k * r) = bpow radix2 k * Rabs r)%R.
Proof. intros k r. rewrite Rabs_mult, (Rabs_pos_eq (bpow radix2 k)) by apply bpow_ge_0. reflexivity. Qed.

Lemma rnd_scale : forall k r, (r = 0 \/ (bpow radix2 (-126) <= Rabs r /\ bpow radix2 (-126) <= Rabs (bpow radix2 k * r)))%R ->
  rnd (bpow radix2 k * r) = (bpow radix2 k * rnd r)%R.
Proof.
  intros k r [Z|[A B]].
  - rewrite Z, Rmult_0_r. unfold rnd. rewrite round_0 by apply valid_rnd_N. ring.
  - rewrite !rnd_flx by assumption. apply round_flx_scale.
Qed.

Lemma flx_fmt_scale : forall k r, generic_format radix2 flx r -> generic_format radix2 flx (bpow radix2 k * r).
Proof.
  intros k r H. assert (R : round radix2 flx ZnearestE r = r) by (apply round_generic; [apply valid_rnd_N|exact H]).
  rewrite <- R, <- round_flx_scale. apply generic_format_round; [apply FLX_exp_valid; reflexivity|apply valid_rnd_N].
Qed.

(** A number in the format, scaled above the subnormal range, is in the format. *)
Lemma fmt_up : forall k r, fmt r -> (bpow radix2 (-126) <= Rabs (bpow radix2 k * r))%R -> fmt (bpow radix2 k * r).
Proof.
  intros k r F H. unfold fmt. apply generic_format_FLT_FLX; [exact H|]. apply flx_fmt_scale.
  apply generic_format_FLX_FLT with (1 := F).
Qed.

Lemma bpow_inv_mul : forall k r, (bpow radix2 (- k) * (bpow radix2 k * r) = r)%R.
Proof. intros k r. rewrite <- Rmult_assoc, <- bpow_plus. replace (- k + k) with 0 by ring. change (bpow radix2 0) with 1%R. ring. Qed.

Lemma rnd_scale_sum : forall k a b, fmt a -> fmt b -> fmt (bpow radix2 k * a) -> fmt (bpow radix2 k * b) ->
  rnd (bpow radix2 k * (a + b)) = (bpow radix2 k * rnd (a + b))%R.
Proof.
  intros k a b Fa Fb Fa' Fb'.
  assert (S : forall u v, fmt u -> fmt v -> (Rabs (u + v) <= bpow radix2 (-125))%R -> fmt (u + v)).
  { intros u v Fu Fv H. apply FLT_format_plus_small; trivial. reflexivity. }
  assert (L : (bpow radix2 (-126) <= bpow radix2 (-125))%R) by (apply bpow_le; lia).
  destruct (Rle_or_lt (bpow radix2 (-126)) (Rabs (a + b))) as [A|A]; destruct (Rle_or_lt (bpow radix2 (-126)) (Rabs (bpow radix2 k * (a + b)))) as [B|B].
  - apply rnd_scale. right. split; assumption.
  - assert (F' : fmt (bpow radix2 k * (a + b))).
    { rewrite Rmult_plus_distr_l. rewrite Rmult_plus_distr_l in B. apply S; trivial. lra. }
    rewrite (rnd_fmt _ F'). f_equal. symmetry. apply rnd_fmt.
    rewrite <- (bpow_inv_mul k (a + b)). apply fmt_up; [exact F'|]. rewrite bpow_inv_mul. exact A.
  - assert (F : fmt (a + b)) by (apply S; trivial; lra).
    rewrite (rnd_fmt (a + b) F). apply rnd_fmt. apply fmt_up; assumption.
  - assert (F : fmt (a + b)) by (apply S; trivial; lra).
    assert (F' : fmt (bpow radix2 k * (a + b))).
    { rewrite Rmult_plus_distr_l. rewrite Rmult_plus_distr_l in B. apply S; trivial. lra. }
    rewrite (rnd_fmt _ F), (rnd_fmt _ F'). reflexivity.
Qed.

(** ** Signs of finite results *)

Lemma fmul_fin_sign : forall {E : Env} x y, fin x -> fin y -> sign_bit (fmul x y) = xorb (sign_bit x) (sign_bit y).
Proof.
  intros E x y Fx Fy. pose proof (fmul_fin_not_nan x y Fx Fy) as N.
  pose proof (Bmult_correct 24 128 prec24 emax128 nan_mul mode_NE x y) as C. fold (fmul x y) in C.
  destruct (Rlt_bool _ _).
  - destruct C as (_ & _ & C). apply C. exact N.
  - fold (sign_bit x) (sign_bit y) in C. unfold binary_overflow in C. simpl overflow_to_inf in C. cbv iota in C.
    destruct (fmul x y) as [s|s|s p K|s m e K]; simpl in C; try discriminate. injection C as C. exact C.
Qed.

Lemma fdiv_sign : forall {E : Env} x y, fin x -> fin y -> (val y <> 0)%R -> fin (fdiv x y) -> sign_bit (fdiv x y) = xorb (sign_bit x) (sign_bit y).
Proof.
  intros E x y Fx Fy Z F.
  pose proof (Bdiv_correct 24 128 prec24 emax128 nan_div mode_NE x y Z) as C. fold (fdiv x y) in C.
  destruct (Rlt_bool _ _).
  - destruct C as (_ & _ & C). apply C. unfold fin in F. destruct (fdiv x y); try discriminate; reflexivity.
  - fold (sign_bit x) (sign_bit y) in C. unfold binary_overflow in C. simpl overflow_to_inf in C. cbv iota in C.
    destruct (fdiv x y) as [s|s|s p K|s m e K]; simpl in C; try discriminate.
Qed.

Lemma fadd_sign : forall {E : Env} x y, fin x -> fin y -> (Rabs (rnd (val x + val y)) < bpow radix2 128)%R ->
  sign_bit (fadd x y) = match Rcompare (val x + val y) 0 with Eq => andb (sign_bit x) (sign_bit y) | Lt => true | Gt => false end.
Proof.
  intros E x y Fx Fy H.
  pose proof (Bplus_correct 24 128 prec24 emax128 nan_add mode_NE x y Fx Fy) as C.
  rewrite Rlt_bool_true in C by exact H. destruct C as (_ & _ & C). exact C.
Qed.

(** ** Scaled operands give scaled results *)

Lemma scaled_sign_nz : forall k x y, fin x -> fin y -> val y = (bpow radix2 k * val x)%R -> val x <> 0%R -> sign_bit y = sign_bit x.
Proof.
  intros k x y Fx Fy V N. pose proof (bpow_gt_0 radix2 k) as P.
  destruct (sign_bit x) eqn:Sx, (sign_bit y) eqn:Sy; trivial.
  - apply sign_val_neg in Sx. apply sign_val_pos in Sy. assert (val x < 0)%R by lra. assert (val y < 0)%R by (rewrite V; nra). lra.
  - apply sign_val_pos in Sx. apply sign_val_neg in Sy. assert (0 < val x)%R by lra. assert (0 < val y)%R by (rewrite V; nra). lra.
Qed.

Lemma scaled_0_eq : forall x y, scaled 0 x y -> y = x.
Proof. intros x y (Fx & Fy & V & S). change (bpow radix2 0) with 1%R in V. apply fin_dec_eq; trivial. lra. Qed.

Lemma scaled_refl : forall x, fin x -> scaled 0 x x.
Proof. intros x F. split; [exact F|]. split; [exact F|]. split; [change (bpow radix2 0) with 1%R; ring|reflexivity]. Qed.

Lemma scaled_sym : forall k x y, scaled k x y -> scaled (- k) y x.
Proof. intros k x y (Fx & Fy & V & S). repeat split; trivial; [|symmetry; exact S]. rewrite V, bpow_inv_mul. reflexivity. Qed.

Lemma scaled_zero : forall k x y, scaled k x y -> (val x = 0 <-> val y = 0)%R.
Proof.
  intros k x y (_ & _ & V & _). pose proof (bpow_gt_0 radix2 k). split; intros Z.
  - rewrite V, Z. ring.
  - rewrite Z in V. symmetry in V. apply Rmult_integral in V. lra.
Qed.

Definition nz_normal (r : R) : Prop := (r = 0 \/ bpow radix2 (-126) <= Rabs r)%R.

Lemma scaled_mul : forall {E : Env} j k a a' b b', scaled j a a' -> scaled k b b' ->
  nz_normal (val a * val b) -> nz_normal (val a' * val b') ->
  (Rabs (val a * val b) <= bpow radix2 127)%R -> (Rabs (val a' * val b') <= bpow radix2 127)%R ->
  scaled (j + k) (fmul a b) (fmul a' b').
Proof.
  intros E j k a a' b b' (Fa & Fa' & Va & Sa) (Fb & Fb' & Vb & Sb) N N' U U'.
  destruct (fmul_R a b Fa Fb) as [F V]; [apply (small_lt_128 127); [lia|exact U]|].
  destruct (fmul_R a' b' Fa' Fb') as [F' V']; [apply (small_lt_128 127); [lia|exact U']|].
  split; [exact F|]. split; [exact F'|]. split.
  - rewrite V, V'. assert (Q : (val a' * val b' = bpow radix2 (j + k) * (val a * val b))%R) by (rewrite Va, Vb, bpow_plus; ring).
    rewrite Q in *. apply rnd_scale. destruct N as [N|N]; [left; exact N|]. destruct N' as [N'|N'].
    + left. pose proof (bpow_gt_0 radix2 (j + k)). apply Rmult_integral in N'. lra.
    + right. split; assumption.
  - rewrite !fmul_fin_sign by assumption. rewrite Sa, Sb. reflexivity.
Qed.

Lemma scaled_mul_0 : forall {E : Env} j a a' b b', scaled j a a' -> scaled (- j) b b' ->
  (Rabs (val a * val b) <= bpow radix2 127)%R -> fmul a' b' = fmul a b.
Proof.
  intros E j a a' b b' (Fa & Fa' & Va & Sa) (Fb & Fb' & Vb & Sb) U.
  assert (Q : (val a' * val b' = val a * val b)%R).
  { rewrite Va, Vb. replace (bpow radix2 j * val a * (bpow radix2 (- j) * val b))%R with (bpow radix2 (- j) * (bpow radix2 j * (val a * val b)))%R by ring. apply bpow_inv_mul. }
  destruct (fmul_R a b Fa Fb) as [F V]; [apply (small_lt_128 127); [lia|exact U]|].
  destruct (fmul_R a' b' Fa' Fb') as [F' V']; [apply (small_lt_128 127); [lia|rewrite Q; exact U]|].
  apply fin_dec_eq; trivial; [rewrite V, V', Q; reflexivity|]. rewrite !fmul_fin_sign by assumption. rewrite Sa, Sb. reflexivity.
Qed.

Lemma scaled_add : forall {E : Env} k a a' b b', scaled k a a' -> scaled k b b' ->
  (Rabs (val a + val b) <= bpow radix2 127)%R -> (Rabs (val a' + val b') <= bpow radix2 127)%R ->
  scaled k (fadd a b) (fadd a' b').
Proof.
  intros E k a a' b b' (Fa & Fa' & Va & Sa) (Fb & Fb' & Vb & Sb) U U'.
  pose proof (small_lt_128 127 _ ltac:(lia) U) as W. pose proof (small_lt_128 127 _ ltac:(lia) U') as W'.
  destruct (fadd_R a b Fa Fb W) as [F V]. destruct (fadd_R a' b' Fa' Fb' W') as [F' V'].
  assert (Q : (val a' + val b' = bpow radix2 k * (val a + val b))%R) by (rewrite Va, Vb; ring).
  split; [exact F|]. split; [exact F'|]. split.
  - rewrite V, V', Q. apply rnd_scale_sum; try apply fmt_val; [rewrite <- Va|rewrite <- Vb]; apply fmt_val.
  - rewrite !fadd_sign by assumption. rewrite Q, Sa, Sb.
    replace (Rcompare (bpow radix2 k * (val a + val b)) 0) with (Rcompare (val a + val b) 0); [reflexivity|].
    rewrite <- (Rmult_0_r (bpow radix2 k)) at 2. rewrite Rcompare_mult_l by apply bpow_gt_0. reflexivity.
Qed.

Lemma scaled_neg : forall k a a', scaled k a a' -> scaled k (fneg a) (fneg a').
Proof.
  intros k a a' (F & F' & V & S). split; [apply fneg_fin; exact F|]. split; [apply fneg_fin; exact F'|].
  split; [rewrite !fneg_val, V; ring|rewrite !fneg_sign, S; reflexivity].
Qed.

Lemma fsub_fadd : forall {E : Env} a b, fin a -> fin b -> fsub a b = fadd a (fneg b).
Proof.
  intros E a b Fa Fb. pose proof (P_Quat.fsub_fneg a (fneg b)) as S. rewrite fneg_involutive in S.
  destruct S as [S|[_ S]]; [exact S|]. exfalso.
  pose proof (fadd_fin_not_nan a (fneg b) Fa (fneg_fin b Fb)) as N. unfold nan in S. congruence.
Qed.

Lemma scaled_sub : forall {E : Env} k a a' b b', scaled k a a' -> scaled k b b' ->
  (Rabs (val a - val b) <= bpow radix2 127)%R -> (Rabs (val a' - val b') <= bpow radix2 127)%R ->
  scaled k (fsub a b) (fsub a' b').
Proof.
  intros E k a a' b b' A B U U'. pose proof A as (Fa & Fa' & _). pose proof B as (Fb & Fb' & _).
  rewrite !fsub_fadd by assumption. apply scaled_add; [exact A|apply scaled_neg; exact B| |]; rewrite fneg_val; assumption.
Qed.

Lemma scaled_abs : forall k a a', scaled k a a' -> scaled k (F32_abs a) (F32_abs a').
Proof.
  intros k a a' (F & F' & V & S). split; [unfold fin; rewrite abs_fin; exact F|]. split; [unfold fin; rewrite abs_fin; exact F'|].
  rewrite !abs_val, !abs_sign, V. split; [|reflexivity]. apply Rabs_scale.
Qed.

Lemma scaled_div : forall {E : Env} j k a a' b b', scaled j a a' -> scaled k b b' -> (val b <> 0)%R ->
  nz_normal (val a / val b) -> nz_normal (val a' / val b') ->
  (Rabs (val a / val b) <= bpow radix2 127)%R -> (Rabs (val a' / val b') <= bpow radix2 127)%R ->
  scaled (j - k) (fdiv a b) (fdiv a' b').
Proof.
  intros E j k a a' b b' (Fa & Fa' & Va & Sa) B Nb N N' U U'.
  assert (Nb' : val b' <> 0%R) by (intros Z; apply (proj2 (scaled_zero _ _ _ B)) in Z; contradiction).
  destruct B as (Fb & Fb' & Vb & Sb).
  destruct (fdiv_R a b Fa Fb Nb) as [F V]; [apply (small_lt_128 127); [lia|exact U]|].
  destruct (fdiv_R a' b' Fa' Fb' Nb') as [F' V']; [apply (small_lt_128 127); [lia|exact U']|].
  split; [exact F|]. split; [exact F'|]. split.
  - rewrite V, V'. assert (Q : (val a' / val b' = bpow radix2 (j - k) * (val a / val b))%R).
    { rewrite Va, Vb. unfold Z.sub. rewrite bpow_plus, bpow_opp. pose proof (bpow_gt_0 radix2 k). field. split; [exact Nb|lra]. }
    rewrite Q in *. apply rnd_scale. destruct N as [N|N]; [left; exact N|]. destruct N' as [N'|N'].
    + left. pose proof (bpow_gt_0 radix2 (j - k)). apply Rmult_integral in N'. lra.
    + right. split; assumption.
  - rewrite !fdiv_sign by assumption. rewrite Sa, Sb. reflexivity.
Qed.

Lemma scaled_div_0 : forall {E : Env} k a a' b b', scaled k a a' -> scaled k b b' -> (val b <> 0)%R ->
  (Rabs (val a / val b) <= bpow radix2 127)%R -> fdiv a' b' = fdiv a b.
Proof.
  intros E k a a' b b' (Fa & Fa' & Va & Sa) B Nb U.
  assert (Nb' : val b' <> 0%R) by (intros Z; apply (proj2 (scaled_zero _ _ _ B)) in Z; contradiction).
  destruct B as (Fb & Fb' & Vb & Sb).
  assert (Q : (val a' / val b' = val a / val b)%R).
  { rewrite Va, Vb. pose proof (bpow_gt_0 radix2 k). field. split; [exact Nb|lra]. }
  destruct (fdiv_R a b Fa Fb Nb) as [F V]; [apply (small_lt_128 127); [lia|exact U]|].
  destruct (fdiv_R a' b' Fa' Fb' Nb') as [F' V']; [apply (small_lt_128 127); [lia|rewrite Q; exact U]|].
  apply fin_dec_eq; trivial; [rewrite V, V', Q; reflexivity|]. rewrite !fdiv_sign by assumption. rewrite Sa, Sb. reflexivity.
Qed.

(** ** Bit patterns: scaling adds to the exponent field *)

Lemma scaled_bits : forall k x y, normal_pos x -> normal_pos y -> scaled k x y -> to_bits y = to_bits x + k * 2 ^ 23.
Proof.
  intros k x y Nx Ny (Fx & Fy & V & _).
  pose proof (split_valz x Nx) as P. pose proof (split_valz y Ny) as Q. cbv zeta in *.
  destruct P as (E1 & M1 & T1 & _ & V1). destruct Q as (E2 & M2 & T2 & _ & V2).
  set (ex := bexp (to_bits x)) in *. set (mx := bman (to_bits x)) in *. set (ey := bexp (to_bits y)) in *. set (my := bman (to_bits y)) in *.
  rewrite V1, V2 in V. rewrite <- Rmult_assoc, (Rmult_comm (bpow radix2 k)), Rmult_assoc, <- bpow_plus in V.
  assert (H : ey = ex + k /\ my = mx).
  { assert (LE : forall m e n f, 0 <= m < 2 ^ 23 -> 0 <= n < 2 ^ 23 -> (IZR (2 ^ 23 + m) * bpow radix2 e = IZR (2 ^ 23 + n) * bpow radix2 f)%R -> e <= f).
    { intros m e n f Hm Hn H. apply Z.nlt_ge. intros L.
      assert (A : (IZR (2 ^ 23 + n) < bpow radix2 24)%R) by (change (bpow radix2 24) with (IZR (2 ^ 24)); apply IZR_lt; lia).
      assert (B : (bpow radix2 23 <= IZR (2 ^ 23 + m))%R) by (change (bpow radix2 23) with (IZR (2 ^ 23)); apply IZR_le; lia).
      assert (C : (bpow radix2 (24 + f) <= bpow radix2 (23 + e))%R) by (apply bpow_le; lia). rewrite !bpow_plus in C.
      pose proof (bpow_gt_0 radix2 e). pose proof (bpow_gt_0 radix2 f).
      assert (bpow radix2 23 * bpow radix2 e <= IZR (2 ^ 23 + m) * bpow radix2 e)%R by (apply Rmult_le_compat_r; lra).
      assert (IZR (2 ^ 23 + n) * bpow radix2 f < bpow radix2 24 * bpow radix2 f)%R by (apply Rmult_lt_compat_r; lra). lra. }
    pose proof (LE _ _ _ _ M2 M1 V) as L1. pose proof (LE _ _ _ _ M1 M2 (eq_sym V)) as L2.
    assert (EE : ey - 150 = k + (ex - 150)) by lia. split; [lia|]. rewrite EE in V.
    apply Rmult_eq_reg_r in V; [|apply Rgt_not_eq, bpow_gt_0]. apply eq_IZR in V. lia. }
  destruct H as [-> ->]. rewrite T1, T2. ring.
Qed.

Lemma bits_scaled : forall k x y, normal_pos x -> normal_pos y -> to_bits y = to_bits x + k * 2 ^ 23 -> scaled k x y.
Proof.
  intros k x y Nx Ny T.
  pose proof (split_valz x Nx) as P. pose proof (split_valz y Ny) as Q. cbv zeta in *.
  destruct P as (E1 & M1 & T1 & S1 & V1). destruct Q as (E2 & M2 & T2 & S2 & V2).
  split; [apply Nx|]. split; [apply Ny|]. rewrite S1, S2. split; [|reflexivity].
  assert (H : bexp (to_bits y) = bexp (to_bits x) + k /\ bman (to_bits y) = bman (to_bits x)).
  { rewrite T1, T2 in T at 1. split; [|].
    - apply Z.mul_reg_r with (2 ^ 23); [lia|]. assert (Z.abs ((bexp (to_bits y) - bexp (to_bits x) - k) * 2 ^ 23) < 2 ^ 23) by lia.
      assert (bexp (to_bits y) - bexp (to_bits x) - k = 0) by nia. lia.
    - assert (bexp (to_bits y) - bexp (to_bits x) - k = 0) by nia. nia. }
  rewrite V1, V2. destruct H as [-> ->]. replace (bexp (to_bits x) + k - 150) with (k + (bexp (to_bits x) - 150)) by ring.
  rewrite bpow_plus. ring.
Qed.

(** ** sqrt, invsqrt, inv, recip *)

Lemma Ok_inj : forall (u v : f32), Ok u = Ok v -> u = v.
Proof. intros u v H. injection H. trivial. Qed.

Lemma sqrt_scaled : forall {E : Env} k x y, normal_pos x -> normal_pos y -> scaled (2 * k) x y ->
  exists a b, F32_sqrt x = Ok a /\ F32_sqrt y = Ok b /\ normal_pos a /\ normal_pos b /\ scaled k a b.
Proof.
  intros E k x y Nx Ny S. pose proof (scaled_bits _ _ _ Nx Ny S) as T.
  destruct (sqrt_square_bounds x Nx) as (a & Ha & Na & _). destruct (sqrt_square_bounds y Ny) as (b & Hb & Nb & _).
  exists a, b. do 4 (split; [assumption|]). pose proof (split_valz x Nx) as P. pose proof (split_valz y Ny) as Q. cbv zeta in *.
  destruct P as (E1 & M1 & T1 & S1 & _). destruct Q as (E2 & M2 & T2 & S2 & _).
  rewrite sqrt_pos_bits in Ha by (trivial; apply fin_not_nan, Nx). rewrite sqrt_pos_bits in Hb by (trivial; apply fin_not_nan, Ny).
  apply Ok_inj in Ha. apply Ok_inj in Hb. subst a b.
  pose proof (nonneg_bits x (fin_not_nan x (proj1 Nx)) S1). pose proof (nonneg_bits y (fin_not_nan y (proj1 Ny)) S2).
  apply bits_scaled; trivial. rewrite !to_from_bits by (split; [apply Z.div_pos|apply Z.div_lt_upper_bound]; lia). rewrite T.
  replace (to_bits x + 2 * k * 2 ^ 23 + 0x3F800000) with (to_bits x + 0x3F800000 + (k * 2 ^ 23) * 2) by ring.
  rewrite Z.div_add by lia. reflexivity.
Qed.

Lemma invsqrt_scaled : forall {E : Env} k x y, normal_pos x -> normal_pos y -> scaled (2 * k) x y ->
  exists a b, F32_invsqrt x = Ok a /\ F32_invsqrt y = Ok b /\ normal_pos a /\ normal_pos b /\ scaled (- k) a b.
Proof.
  intros E k x y Nx Ny S. pose proof (scaled_bits _ _ _ Nx Ny S) as T.
  destruct (invsqrt_square_bounds x Nx) as (a & Ha & Na & _). destruct (invsqrt_square_bounds y Ny) as (b & Hb & Nb & _).
  exists a, b. do 4 (split; [assumption|]). pose proof (split_valz x Nx) as P. pose proof (split_valz y Ny) as Q. cbv zeta in *.
  destruct P as (E1 & M1 & T1 & S1 & _). destruct Q as (E2 & M2 & T2 & S2 & _).
  pose proof (nonneg_bits x (fin_not_nan x (proj1 Nx)) S1). pose proof (nonneg_bits y (fin_not_nan y (proj1 Ny)) S2).
  assert (0 <= to_bits x / 2 <= 0x3FC00000) by (split; [apply Z.div_pos|apply Z.div_le_upper_bound]; lia).
  assert (0 <= to_bits y / 2 <= 0x3FC00000) by (split; [apply Z.div_pos|apply Z.div_le_upper_bound]; lia).
  rewrite invsqrt_bits in Ha by lia. rewrite invsqrt_bits in Hb by lia. apply Ok_inj in Ha. apply Ok_inj in Hb. subst a b.
  apply bits_scaled; trivial. rewrite !to_from_bits by lia. rewrite T in *.
  replace (to_bits x + 2 * k * 2 ^ 23) with (to_bits x + (k * 2 ^ 23) * 2) in * by ring.
  rewrite Z.div_add by lia. lia.
Qed.

Lemma inv_bits_le : forall x, normal_pos x -> (val x <= bpow radix2 126)%R -> to_bits x <= 0x7F000000.
Proof.
  intros x Nx H. pose proof (split_valz x Nx) as P. cbv zeta in P. destruct P as (E1 & M1 & T1 & S1 & V).
  rewrite T1. apply Z.nlt_ge. intros L. assert (253 < bexp (to_bits x)) by lia.
  assert (bpow radix2 23 <= IZR (2 ^ 23 + bman (to_bits x)))%R by (change (bpow radix2 23) with (IZR (2 ^ 23)); apply IZR_le; lia).
  assert (bpow radix2 (127 - 23) <= bpow radix2 (bexp (to_bits x) - 150))%R by (apply bpow_le; lia).
  assert (bpow radix2 127 <= val x)%R.
  { rewrite V. replace 127 with (23 + (127 - 23)) by ring. rewrite bpow_plus. apply Rmult_le_compat; trivial; apply bpow_ge_0. }
  assert (bpow radix2 126 < bpow radix2 127)%R by (apply bpow_lt; lia). lra.
Qed.

Lemma inv_scaled : forall {E : Env} k x y, normal_pos x -> normal_pos y -> (val x <= bpow radix2 126)%R -> (val y <= bpow radix2 126)%R ->
  scaled k x y -> normal_pos (F32_inv x) /\ normal_pos (F32_inv y) /\ scaled (- k) (F32_inv x) (F32_inv y).
Proof.
  intros E k x y Nx Ny Ux Uy S. pose proof (scaled_bits _ _ _ Nx Ny S) as T.
  destruct (inv_accuracy x Nx Ux) as [Na _]. destruct (inv_accuracy y Ny Uy) as [Nb _]. split; [exact Na|]. split; [exact Nb|].
  pose proof (inv_bits_le x Nx Ux). pose proof (inv_bits_le y Ny Uy). pose proof (to_bits_range x). pose proof (to_bits_range y).
  apply bits_scaled; trivial. rewrite (inv_bits x), (inv_bits y) by assumption. rewrite !to_from_bits by lia. lia.
Qed.

Lemma wrap_u32_small : forall z, 0 <= z < 2 ^ 32 -> wrap u32 z = z.
Proof. intros z H. unfold wrap. change (ity_min u32) with 0. rewrite Z.sub_0_r, Z.add_0_r. apply Z.mod_small. exact H. Qed.

Lemma poly_range : forall {E : Env} w, fin w -> (0.9419 <= val w <= 1.0399)%R ->
  fin (recip_poly w) /\ (0.93 <= val (recip_poly w) <= 1.07)%R.
Proof.
  intros E w F H. destruct (poly_spec w F H) as [G B]. split; [exact G|]. set (t := (1 - val w)%R) in *.
  assert (T : (-0.04 <= t <= 0.0582)%R) by (unfold t; lra). clearbody t. apply Rabs_le_inv in B.
  assert (S : forall h, (0.95 <= h <= 1.063 -> 0.95 <= 1 + t * h <= 1.063)%R) by (intros h Hh; nra).
  replace (1 + t + t^2 + t^3 + t^4 + t^5 + t^6 + t^7)%R with (1 + t * (1 + t * (1 + t * (1 + t * (1 + t * (1 + t * (1 + t * 1)))))))%R in B by ring.
  assert (S1 : (0.95 <= 1 <= 1.063)%R) by lra.
  pose proof (S _ (S _ (S _ (S _ (S _ (S _ (S _ S1))))))). lra.
Qed.

Lemma recip_pos_scaled : forall {E : Env} k x y, normal_pos x -> normal_pos y -> (val x <= bpow radix2 125)%R -> (val y <= bpow radix2 125)%R ->
  scaled k x y -> scaled (- k) (fmul (recip_guess x) (recip_poly (fmul x (recip_guess x)))) (fmul (recip_guess y) (recip_poly (fmul y (recip_guess y)))).
Proof.
  intros E k x y Nx Ny Ux Uy S. pose proof (scaled_bits _ _ _ Nx Ny S) as T.
  destruct (guess_spec x Nx Ux) as (Fv & Pv & Bv). destruct (guess_spec y Ny Uy) as (Fw & Pw & Bw).
  pose proof (normal_pos_gt0 x Nx) as Px. pose proof (normal_pos_gt0 y Ny) as Py.
  assert (LO : forall a b, (0 < a <= bpow radix2 125 -> 0 < b -> 0.942 <= a * b -> bpow radix2 (-126) * 1.8 <= b)%R).
  { intros a b Ha Hb H. assert (A : (bpow radix2 (-126) * bpow radix2 125 = / 2)%R) by (rewrite <- bpow_plus; reflexivity).
    pose proof (bpow_gt_0 radix2 125). apply Rmult_le_reg_l with (bpow radix2 125); [lra|]. nra. }
  assert (HI : forall a b, (bpow radix2 (-126) <= a -> 0 < b -> a * b <= 1.0398 -> b <= 1.0398 * bpow radix2 126)%R).
  { intros a b Ha Hb H. assert (A : (bpow radix2 (-126) * bpow radix2 126 = 1)%R) by (rewrite <- bpow_plus; reflexivity).
    pose proof (bpow_gt_0 radix2 (-126)). pose proof (bpow_gt_0 radix2 126). apply Rmult_le_reg_l with (bpow radix2 (-126)); [lra|]. nra. }
  pose proof (LO _ _ (conj Px Ux) Pv (proj1 Bv)) as Lv. pose proof (LO _ _ (conj Py Uy) Pw (proj1 Bw)) as Lw.
  pose proof (HI _ _ (proj2 Nx) Pv (proj2 Bv)) as Hv. pose proof (HI _ _ (proj2 Ny) Pw (proj2 Bw)) as Hw.
  pose proof (bpow_gt_0 radix2 (-126)) as P126.
  assert (Ng : normal_pos (recip_guess x)) by (split; [exact Fv|lra]).
  assert (Nh : normal_pos (recip_guess y)) by (split; [exact Fw|lra]).
  assert (G : scaled (- k) (recip_guess x) (recip_guess y)).
  { apply bits_scaled; trivial. pose proof (split_valz x Nx) as P. pose proof (split_valz y Ny) as Q. cbv zeta in *.
    destruct P as (_ & _ & _ & S1 & _). destruct Q as (_ & _ & _ & S2 & _).
    pose proof (inv_bits_le x Nx) as I. pose proof (inv_bits_le y Ny) as J.
    assert (A126 : (bpow radix2 125 <= bpow radix2 126)%R) by (apply bpow_le; lia).
    pose proof (to_bits_range x). pose proof (to_bits_range y).
    assert (B : forall z, normal_pos z -> (val z <= bpow radix2 125)%R -> 0 <= 0x7EF127EA - to_bits z < 2 ^ 32).
    { intros z Nz Uz. pose proof (to_bits_range z). pose proof (split_valz z Nz) as P. cbv zeta in P. destruct P as (E1 & M1 & T1 & _ & V).
      split; [|lia]. apply Z.nlt_ge. intros L. assert (252 * 2 ^ 23 < to_bits z) by lia.
      assert (bpow radix2 125 < val z)%R; [|lra].
      rewrite V. replace (bpow radix2 125) with (bpow radix2 23 * bpow radix2 102)%R by (rewrite <- bpow_plus; reflexivity).
      change (bpow radix2 23) with (IZR (2 ^ 23)). destruct (Z.eq_dec (bexp (to_bits z)) 252) as [Q|Q].
      - rewrite Q. apply Rmult_lt_compat_r; [apply bpow_gt_0|]. apply IZR_lt. lia.
      - apply Rle_lt_trans with (IZR (2 ^ 23 + bman (to_bits z)) * bpow radix2 102)%R.
        + apply Rmult_le_compat_r; [apply bpow_ge_0|]. apply IZR_le. lia.
        + apply Rmult_lt_compat_l; [apply (IZR_lt 0); lia|]. apply bpow_lt. lia. }
    pose proof (B x Nx Ux). pose proof (B y Ny Uy).
    unfold recip_guess. rewrite !wrap_u32_small by lia. rewrite !to_from_bits by lia. lia. }
  assert (W : fmul y (recip_guess y) = fmul x (recip_guess x)).
  { apply (scaled_mul_0 k); trivial. apply Rle_trans with (bpow radix2 1); [change (bpow radix2 1) with 2%R; apply Rabs_le; lra|apply bpow_le; lia]. }
  rewrite W. clear W.
  destruct (fmul_e 1 x (recip_guess x) (proj1 Nx) Fv ltac:(lia)) as (e & Fm & Vm & He).
  { bpow_lit. apply Rabs_le. lra. }
  simpl (1 - 25) in He. revert He. bpow_lit. intros He. apply Rabs_le_inv in He.
  destruct (poly_range (fmul x (recip_guess x)) Fm) as [Fp Bp]; [rewrite Vm; lra|].
  set (p := recip_poly (fmul x (recip_guess x))) in *.
  replace (- k) with (- k + 0) by ring. apply scaled_mul; [exact G|apply scaled_refl; exact Fp|right|right| |].
  - rewrite Rabs_pos_eq by nra. nra.
  - rewrite Rabs_pos_eq by nra. nra.
  - rewrite Rabs_pos_eq by nra. replace (bpow radix2 127) with (2 * bpow radix2 126)%R by (change 127 with (1 + 126); rewrite bpow_plus; reflexivity). nra.
  - rewrite Rabs_pos_eq by nra. replace (bpow radix2 127) with (2 * bpow radix2 126)%R by (change 127 with (1 + 126); rewrite bpow_plus; reflexivity). nra.
Qed.

Lemma recip_scaled : forall {E : Env} k x y,
  (bpow radix2 (-126) <= Rabs (val x) <= bpow radix2 125)%R -> (bpow radix2 (-126) <= Rabs (val y) <= bpow radix2 125)%R ->
  scaled k x y -> scaled (- k) (F32_recip x) (F32_recip y).
Proof.
  intros E k x y Bx By S. pose proof S as (Fx & Fy & V & Sg). pose proof (bpow_gt_0 radix2 (-126)) as P. pose proof (bpow_gt_0 radix2 k) as Pk.
  assert (Nz : val x <> 0%R) by (intros Z; rewrite Z, Rabs_R0 in Bx; lra).
  destruct one_val as [F1 V1].
  destruct (Rlt_or_le 0 (val x)) as [L|L].
  - assert (L' : (0 < val y)%R) by (rewrite V; apply Rmult_lt_0_compat; lra).
    rewrite !recip_unfold_pos by assumption. rewrite Rabs_pos_eq in Bx by lra. rewrite Rabs_pos_eq in By by lra.
    pose proof (recip_pos_scaled k x y (conj Fx (proj1 Bx)) (conj Fy (proj1 By)) (proj2 Bx) (proj2 By) S) as R.
    pose proof R as (FA & FB & _). destruct (fmul_one _ FA) as [FA' VA']. destruct (fmul_one _ FB) as [FB' VB'].
    split; [exact FA'|]. split; [exact FB'|]. destruct R as (_ & _ & RV & RS). rewrite VA', VB', (fmul_fin_sign _ F32_ONE FA F1), (fmul_fin_sign _ F32_ONE FB F1), RS. split; [exact RV|reflexivity].
  - assert (L1 : (val x < 0)%R) by lra. assert (L' : (val y < 0)%R) by (rewrite V; nra).
    rewrite !recip_unfold_neg by assumption.
    assert (S' : scaled k (F32_abs x) (F32_abs y)) by (apply scaled_abs; exact S).
    pose proof (abs_normal_pos x Fx (proj1 Bx)) as NX. pose proof (abs_normal_pos y Fy (proj1 By)) as NY.
    rewrite <- abs_val in Bx. rewrite <- abs_val in By.
    pose proof (recip_pos_scaled k _ _ NX NY (proj2 Bx) (proj2 By) S') as R.
    pose proof R as (FA & FB & _). destruct (fmul_mone _ FA) as [FA' VA']. destruct (fmul_mone _ FB) as [FB' VB'].
    split; [exact FA'|]. split; [exact FB'|]. destruct R as (_ & _ & RV & RS). rewrite VA', VB', (fmul_fin_sign _ (fneg F32_ONE) FA (fneg_fin _ F1)), (fmul_fin_sign _ (fneg F32_ONE) FB (fneg_fin _ F1)), RS. split; [rewrite RV; ring|reflexivity].
Qed.
