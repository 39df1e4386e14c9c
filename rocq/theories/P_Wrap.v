(** * The operators, comparisons and constants of F32 *)

From Coq Require Import ZArith Reals Bool List Lia Lra.
From Flocq Require Import Core IEEE754.BinarySingleNaN IEEE754.Binary IEEE754.Bits.
From Verif Require Import Base Spec SpecOps Float F32Wrap F32Lemmas ErrLemmas BitLemmas Literals NanLemmas P_Bits P_Floor P_RoundEdge P_Euclid P_SumSq P_Stats P_InvSqrt.
Import ListNotations.
Open Scope Z_scope.


Lemma rnd_0 : rnd 0 = 0%R.
Proof. unfold rnd. apply round_0. apply valid_rnd_N. Qed.

Lemma B2FF_inf : forall (x : f32) s, B2FF 24 128 x = F754_infinity s -> x = f32_inf s.
Proof. intros x s H. destruct x; try discriminate H. injection H as ->. reflexivity. Qed.

Lemma rnd_sign : forall z, (bpow radix2 128 <= Rabs (rnd z))%R -> Rlt_bool z 0 = Rlt_bool (rnd z) 0.
Proof.
  intros z H. pose proof (bpow_gt_0 radix2 128). assert (N : rnd z <> 0%R) by (intros C; rewrite C, Rabs_R0 in H; lra).
  destruct (Rlt_bool_spec z 0) as [L|L].
  - rewrite Rlt_bool_true; [reflexivity|]. pose proof (rnd_nonneg (- z) ltac:(lra)) as P. rewrite rnd_opp in P. lra.
  - rewrite Rlt_bool_false; [reflexivity|]. apply rnd_nonneg, L.
Qed.

Lemma val_sign : forall x, fin x -> val x <> 0%R -> sign_bit x = Rlt_bool (val x) 0.
Proof.
  intros x F N. destruct x as [s|s|s p H|s m e H]; try discriminate F.
  - exfalso. apply N. reflexivity.
  - unfold val, B2R, F2R. cbn [Fnum Fexp sign_bit Bsign]. pose proof (bpow_gt_0 radix2 e).
    destruct s; unfold cond_Zopp.
    + rewrite Rlt_bool_true; [reflexivity|]. rewrite opp_IZR. assert (0 < IZR (Z.pos m))%R by (apply IZR_lt; lia). nra.
    + rewrite Rlt_bool_false; [reflexivity|]. assert (0 < IZR (Z.pos m))%R by (apply IZR_lt; lia). nra.
Qed.

Lemma val_sign_nonneg : forall x, fin x -> sign_bit x = true -> (val x <= 0)%R.
Proof.
  intros x F S. destruct (Req_dec (val x) 0) as [Z0|N]; [lra|]. rewrite (val_sign x F N) in S.
  destruct (Rlt_bool_spec (val x) 0); [lra|discriminate].
Qed.
Lemma val_sign_nonpos : forall x, fin x -> sign_bit x = false -> (0 <= val x)%R.
Proof.
  intros x F S. destruct (Req_dec (val x) 0) as [Z0|N]; [lra|]. rewrite (val_sign x F N) in S.
  destruct (Rlt_bool_spec (val x) 0); [discriminate|lra].
Qed.

Lemma fadd_ieee : forall {E : Env} x y, fin x -> fin y -> ieee (fadd x y) (val x + val y).
Proof.
  intros E x y Hx Hy. split; [apply fadd_R; assumption|]. intros H.
  pose proof (Bplus_correct 24 128 prec24 emax128 nan_add mode_NE x y Hx Hy) as C.
  rewrite Rlt_bool_false in C by exact H. destruct C as [C1 C2].
  apply B2FF_inf. change (binary_overflow 24 128 mode_NE (Bsign 24 128 x)) with (F754_infinity (sign_bit x)) in C1. unfold fadd. rewrite C1.
  f_equal. pose proof (bpow_gt_0 radix2 128). pose proof (rnd_sign _ H) as S.
  destruct (sign_bit x) eqn:Sx; symmetry.
  - pose proof (val_sign_nonneg x Hx Sx). pose proof (val_sign_nonneg y Hy ltac:(unfold sign_bit in *; congruence)).
    apply Rlt_bool_true. destruct (Rlt_le_dec (val x + val y) 0) as [K|K]; [exact K|exfalso].
    replace (val x + val y)%R with 0%R in H by lra. rewrite rnd_0, Rabs_R0 in H. lra.
  - pose proof (val_sign_nonpos x Hx Sx). pose proof (val_sign_nonpos y Hy ltac:(unfold sign_bit in *; congruence)).
    apply Rlt_bool_false. lra.
Qed.

Lemma fsub_ieee : forall {E : Env} x y, fin x -> fin y -> ieee (fsub x y) (val x - val y).
Proof.
  intros E x y Hx Hy. split; [apply fsub_R; assumption|]. intros H.
  pose proof (Bminus_correct 24 128 prec24 emax128 nan_sub mode_NE x y Hx Hy) as C.
  rewrite Rlt_bool_false in C by exact H. destruct C as [C1 C2].
  apply B2FF_inf. change (binary_overflow 24 128 mode_NE (Bsign 24 128 x)) with (F754_infinity (sign_bit x)) in C1. unfold fsub. rewrite C1.
  f_equal. pose proof (bpow_gt_0 radix2 128).
  destruct (sign_bit x) eqn:Sx; symmetry.
  - pose proof (val_sign_nonneg x Hx Sx).
    assert (Sy : sign_bit y = false) by (unfold sign_bit in *; destruct (Bsign 24 128 y); simpl in C2; congruence).
    pose proof (val_sign_nonpos y Hy Sy).
    apply Rlt_bool_true. destruct (Rlt_le_dec (val x - val y) 0) as [K|K]; [exact K|exfalso].
    replace (val x - val y)%R with 0%R in H by lra. rewrite rnd_0, Rabs_R0 in H. lra.
  - pose proof (val_sign_nonpos x Hx Sx).
    assert (Sy : sign_bit y = true) by (unfold sign_bit in *; destruct (Bsign 24 128 y); simpl in C2; congruence).
    pose proof (val_sign_nonneg y Hy Sy).
    apply Rlt_bool_false. lra.
Qed.

Lemma xorb_sign : forall x y, fin x -> fin y -> val x <> 0%R -> val y <> 0%R ->
  xorb (sign_bit x) (sign_bit y) = Rlt_bool (val x * val y) 0.
Proof.
  intros x y Fx Fy Nx Ny. rewrite (val_sign x Fx Nx), (val_sign y Fy Ny).
  destruct (Rlt_bool_spec (val x) 0), (Rlt_bool_spec (val y) 0); simpl xorb; symmetry;
    (apply Rlt_bool_true; nra) || (apply Rlt_bool_false; nra).
Qed.

Lemma fmul_ieee : forall {E : Env} x y, fin x -> fin y -> ieee (fmul x y) (val x * val y).
Proof.
  intros E x y Hx Hy. split; [apply fmul_R; assumption|]. intros H.
  pose proof (Bmult_correct 24 128 prec24 emax128 nan_mul mode_NE x y) as C.
  rewrite Rlt_bool_false in C by exact H.
  change (binary_overflow 24 128 mode_NE (xorb (Bsign 24 128 x) (Bsign 24 128 y))) with (F754_infinity (xorb (sign_bit x) (sign_bit y))) in C.
  apply B2FF_inf. unfold fmul. rewrite C. f_equal. pose proof (bpow_gt_0 radix2 128).
  apply xorb_sign; try assumption; intros K; rewrite K in H; [rewrite Rmult_0_l in H|rewrite Rmult_0_r in H]; rewrite rnd_0, Rabs_R0 in H; lra.
Qed.

Lemma fdiv_ieee : forall {E : Env} x y, fin x -> fin y -> val y <> 0%R -> ieee (fdiv x y) (val x / val y).
Proof.
  intros E x y Hx Hy Ny. split; [apply fdiv_R; assumption|]. intros H.
  pose proof (Bdiv_correct 24 128 prec24 emax128 nan_div mode_NE x y Ny) as C.
  rewrite Rlt_bool_false in C by exact H.
  change (binary_overflow 24 128 mode_NE (xorb (Bsign 24 128 x) (Bsign 24 128 y))) with (F754_infinity (xorb (sign_bit x) (sign_bit y))) in C.
  apply B2FF_inf. unfold fdiv. rewrite C. f_equal. pose proof (bpow_gt_0 radix2 128).
  rewrite xorb_sign; try assumption.
  - destruct (Rlt_bool_spec (val x * val y) 0) as [K|K]; symmetry.
    + apply Rlt_bool_true. assert (I : (0 < / (val y * val y))%R) by (apply Rinv_0_lt_compat; nra).
      replace (val x / val y)%R with (val x * val y * / (val y * val y))%R by (field; exact Ny). nra.
    + apply Rlt_bool_false. assert (I : (0 < / (val y * val y))%R) by (apply Rinv_0_lt_compat; nra).
      replace (val x / val y)%R with (val x * val y * / (val y * val y))%R by (field; exact Ny). nra.
  - intros K. rewrite K in H. unfold Rdiv in H. rewrite Rmult_0_l, rnd_0, Rabs_R0 in H. lra.
Qed.

(** Division by zero. *)
Lemma fdiv_zero : forall {E : Env} x s, is_nan x = false ->
  (feq x F32_ZERO = false -> fdiv x (f32_zero s) = f32_inf (xorb (sign_bit x) s)) /\
  (feq x F32_ZERO = true -> nan (fdiv x (f32_zero s))).
Proof.
  intros E x s N. destruct x as [t|t|t p H|t m e H]; try discriminate N.
  - split; [intros C; destruct t; discriminate|intros _; apply build_nan_nan].
  - split; [intros _; reflexivity|intros C; destruct t; discriminate].
  - split; [intros _; reflexivity|intros C; destruct t; discriminate].
Qed.

(** ** Comparison *)


Lemma val_lt_128 : forall x, (- bpow radix2 128 < val x < bpow radix2 128)%R.
Proof. intros x. pose proof (abs_B2R_lt_emax 24 128 x) as H. apply Rabs_lt_inv in H. exact H. Qed.

Lemma cmp_key : forall x y, is_nan x = false -> is_nan y = false -> f32_partial_cmp x y = Some (Rcompare (key x) (key y)).
Proof.
  intros x y Nx Ny. unfold f32_partial_cmp. pose proof (bpow_gt_0 radix2 128) as P.
  destruct (is_finite x) eqn:Fx; destruct (is_finite y) eqn:Fy.
  - rewrite Bcompare_correct by assumption. unfold key.
    replace (is_infinite x) with false by (destruct x; try discriminate; reflexivity).
    replace (is_infinite y) with false by (destruct y; try discriminate; reflexivity). reflexivity.
  - destruct y as [t|t|t p H|t m e H]; try discriminate. unfold key at 2. cbn [is_infinite sign_bit Bsign].
    unfold key. replace (is_infinite x) with false by (destruct x; try discriminate; reflexivity).
    pose proof (val_lt_128 x). destruct t; [rewrite Rcompare_Gt by lra|rewrite Rcompare_Lt by lra];
      destruct x as [u|u|u q K|u m e K]; try discriminate; reflexivity.
  - destruct x as [t|t|t p H|t m e H]; try discriminate. unfold key at 1. cbn [is_infinite sign_bit Bsign].
    unfold key. replace (is_infinite y) with false by (destruct y; try discriminate; reflexivity).
    pose proof (val_lt_128 y). destruct t; [rewrite Rcompare_Lt by lra|rewrite Rcompare_Gt by lra];
      destruct y as [u|u|u q K|u m e K]; try discriminate; reflexivity.
  - destruct x as [s|s|s p H|s m e H]; try discriminate. destruct y as [t|t|t p' H'|t m' e' H']; try discriminate.
    unfold key. cbn [is_infinite sign_bit Bsign].
    destruct s, t; [rewrite Rcompare_Eq by lra|rewrite Rcompare_Lt by lra|rewrite Rcompare_Gt by lra|rewrite Rcompare_Eq by lra]; reflexivity.
Qed.

Lemma cmp_none : forall x y, f32_partial_cmp x y = None <-> nan x \/ nan y.
Proof.
  intros x y. destruct (is_nan x) eqn:Nx; [|destruct (is_nan y) eqn:Ny].
  - unfold f32_partial_cmp. rewrite cmp_nan_l by exact Nx. split; [intros _; left; exact Nx|reflexivity].
  - unfold f32_partial_cmp. rewrite cmp_nan_r by exact Ny. split; [intros _; right; exact Ny|reflexivity].
  - rewrite cmp_key by assumption. unfold nan. split; [discriminate|intros [C|C]; congruence].
Qed.

Lemma eq_cmp : forall x y, feq x y = true <-> f32_partial_cmp x y = Some Eq.
Proof. intros x y. unfold feq, f32_partial_cmp. destruct (Bcompare 24 128 x y) as [[]|]; split; congruence. Qed.

Lemma key_inj : forall x y, is_nan x = false -> is_nan y = false -> key x = key y ->
  x = y \/ (exists s t, x = f32_zero s /\ y = f32_zero t).
Proof.
  intros x y Nx Ny K. unfold key in K. pose proof (bpow_gt_0 radix2 128) as P.
  destruct (is_infinite x) eqn:Ix; destruct (is_infinite y) eqn:Iy.
  - left. destruct x as [s|s|s p H|s m e H]; try discriminate. destruct y as [t|t|t p' H'|t m' e' H']; try discriminate.
    destruct s, t; try reflexivity; cbn in K; exfalso; unfold sign_bit in K; cbn in K; lra.
  - exfalso. pose proof (val_lt_128 y). destruct (sign_bit x); lra.
  - exfalso. pose proof (val_lt_128 x). destruct (sign_bit y); lra.
  - assert (Fx : fin x) by (destruct x; try discriminate; reflexivity). assert (Fy : fin y) by (destruct y; try discriminate; reflexivity).
    destruct (Req_dec (val x) 0) as [Z0|Z0].
    + right. destruct x as [s|s|s p H|s m e H]; try discriminate.
      2:{ exfalso. revert Z0. unfold val, B2R. apply F2R_neq_0. destruct s; discriminate. }
      assert (Zy : val y = 0%R) by (rewrite <- K; exact Z0).
      destruct y as [t|t|t p H|t m e H]; try discriminate.
      2:{ exfalso. revert Zy. unfold val, B2R. apply F2R_neq_0. destruct t; discriminate. }
      exists s, t. split; reflexivity.
    + left. apply fin_dec_eq; try assumption.
      rewrite (val_sign x Fx Z0), (val_sign y Fy ltac:(rewrite <- K; exact Z0)), K. reflexivity.
Qed.

Lemma eq_iff : forall x y, feq x y = true <->
  (is_nan x = false /\ is_nan y = false /\ (to_bits x = to_bits y \/ (exists s t, x = f32_zero s /\ y = f32_zero t))).
Proof.
  intros x y. rewrite eq_cmp. destruct (is_nan x) eqn:Nx; [|destruct (is_nan y) eqn:Ny].
  - rewrite (proj2 (cmp_none x y)) by (left; exact Nx). split; [discriminate|intros (C & _); discriminate].
  - rewrite (proj2 (cmp_none x y)) by (right; exact Ny). split; [discriminate|intros (_ & C & _); discriminate].
  - rewrite cmp_key by assumption. split.
    + intros H. split; [reflexivity|]. split; [reflexivity|].
      assert (K : key x = key y) by (apply Rcompare_Eq_inv; congruence).
      destruct (key_inj x y Nx Ny K) as [->|J]; [left; reflexivity|right; exact J].
    + intros (_ & _ & [B|(s & t & -> & ->)]); [apply to_bits_inj in B; rewrite B|]; f_equal; apply Rcompare_Eq; reflexivity.
Qed.

(** ** Constants *)

Lemma val_lit : forall b r, 0 <= b < 2 ^ 32 -> bexp b < 255 -> bval b = r -> fin (from_bits b) /\ val (from_bits b) = r.
Proof.
  intros b r R B V. destruct (bits_decode b R) as (D & _). specialize (D B). destruct D as [D1 D2]. split; [exact D1|congruence].
Qed.

(** ** Sums and products *)


Lemma rabssum_app : forall l a, rabssum (l ++ [a]) = (rabssum l + Rabs (val a))%R.
Proof. intros l a. induction l as [|b l IH]; unfold rabssum in *; simpl in *; [lra|]. rewrite IH. lra. Qed.
Lemma rprod_app : forall l a, rprod (l ++ [a]) = (rprod l * val a)%R.
Proof. intros l a. induction l as [|b l IH]; unfold rprod in *; simpl in *; [lra|]. rewrite IH. ring. Qed.
Lemma rabssum_ge : forall l, (Rabs (rsum l) <= rabssum l)%R.
Proof.
  intros l. induction l as [|a l IH]; unfold rsum, rabssum in *; simpl; [rewrite Rabs_R0; lra|].
  eapply Rle_trans; [apply Rabs_triang|]. lra.
Qed.

Lemma sum_abs_error : forall {E : Env} l, Forall fin l -> Z.of_nat (length l) <= 2 ^ 20 -> (rabssum l <= bpow radix2 126)%R ->
  fin (F32_sum l) /\ (Rabs (val (F32_sum l) - rsum l) <= 1.1 * INR (length l) * bpow radix2 (-24) * rabssum l)%R.
Proof.
  intros E l. unfold F32_sum. induction l as [|a l IH] using rev_ind; intros F K L.
  - simpl. split; [reflexivity|]. unfold rsum, rabssum. simpl. change (val (f32_zero sum_start)) with 0%R.
    rewrite Rminus_0_r, Rabs_R0. lra.
  - rewrite app_length in *. change (length [a]) with 1%nat in *. rewrite Nat.add_1_r in *. rewrite S_INR. rewrite Nat2Z.inj_succ in K.
    apply Forall_app in F. destruct F as [F Fa]. inversion Fa as [|? ? Fa' _]; subst. clear Fa.
    rewrite rabssum_app, rsum_app in *. pose proof (Rabs_pos (val a)) as Pa. pose proof (rabssum_ge l) as G.
    pose proof (Rabs_pos (rsum l)) as Ps. pose proof (pos_INR (length l)) as N0. pose proof (INR_small (length l) ltac:(lia)) as NS.
    destruct IH as [Fs Hs]; [exact F|lia|lra|].
    rewrite fold_left_app. cbn [fold_left]. set (s := fold_left fadd l (f32_zero sum_start)) in *. clearbody s.
    set (A := rabssum l) in *. clearbody A. set (S := rsum l) in *. clearbody S. set (n := INR (length l)) in *. clearbody n.
    change (bpow radix2 (-24)) with (/ 16777216)%R in *.
    assert (Eb : (1.1 * n * / 16777216 * A <= 0.1 * A)%R).
    { apply Rmult_le_compat_r; [lra|]. lra. }
    assert (T : (Rabs (val s + val a) <= A + Rabs (val a) + 1.1 * n * / 16777216 * A)%R).
    { replace (val s + val a)%R with ((val s - S) + (S + val a))%R by ring.
      eapply Rle_trans; [apply Rabs_triang|]. pose proof (Rabs_triang S (val a)). lra. }
    assert (D : (bpow radix2 127 = 2 * bpow radix2 126)%R) by (change 127 with (1 + 126); rewrite bpow_plus; reflexivity).
    destruct (fadd_R s a Fs Fa') as [A1 A2].
    { apply (small_lt_128 127); [lia|]. rewrite D. lra. }
    split; [exact A1|]. rewrite A2.
    pose proof (rnd_add_rel (val s) (val a) (fmt_val s) (fmt_val a)) as R. change u24 with (/ 16777216)%R in R.
    replace (rnd (val s + val a) - (S + val a))%R with ((rnd (val s + val a) - (val s + val a)) + (val s - S))%R by ring.
    eapply Rle_trans; [apply Rabs_triang|].
    apply Rle_trans with (/ 16777216 * (1.1 * (A + Rabs (val a))) + 1.1 * n * / 16777216 * (A + Rabs (val a)))%R; [|lra].
    assert (M : (1.1 * n * / 16777216 * A <= 1.1 * n * / 16777216 * (A + Rabs (val a)))%R).
    { apply Rmult_le_compat_l; [apply Rmult_le_pos; lra|lra]. }
    lra.
Qed.

Lemma prod_rel_error : forall {E : Env} l, Forall fin l -> Z.of_nat (length l) <= 2 ^ 20 ->
  (forall k, (k <= length l)%nat -> (bpow radix2 (-124) <= Rabs (rprod (firstn k l)) <= bpow radix2 126)%R) ->
  fin (F32_product l) /\ (Rabs (val (F32_product l) - rprod l) <= 1.1 * INR (length l) * bpow radix2 (-24) * Rabs (rprod l))%R.
Proof.
  intros E l. unfold F32_product. induction l as [|a l IH] using rev_ind; intros F K L.
  - cbn [fold_left length]. destruct one_val as [F1 V1]. split; [exact F1|]. unfold rprod. cbn [fold_right]. rewrite V1.
    change (INR 0) with 0%R. replace (1 - 1)%R with 0%R by ring. rewrite Rabs_R0, !Rmult_0_r, !Rmult_0_l. lra.
  - assert (L0 : (bpow radix2 (-124) <= Rabs (rprod (l ++ [a])) <= bpow radix2 126)%R).
    { rewrite <- (firstn_all (l ++ [a])). apply L. lia. }
    rewrite app_length in *. change (length [a]) with 1%nat in *. rewrite Nat.add_1_r in *. rewrite S_INR. rewrite Nat2Z.inj_succ in K.
    apply Forall_app in F. destruct F as [F Fa]. inversion Fa as [|? ? Fa' _]; subst. clear Fa.
    pose proof (pos_INR (length l)) as N0. pose proof (INR_small (length l) ltac:(lia)) as NS.
    destruct IH as [Fs Hs]; [exact F|lia| |].
    { intros k Hk. specialize (L k ltac:(lia)). rewrite firstn_app in L. replace (k - length l)%nat with 0%nat in L by lia.
      rewrite firstn_O, app_nil_r in L. exact L. }
    rewrite fold_left_app. cbn [fold_left]. set (s := fold_left fmul l F32_ONE) in *. clearbody s. rewrite rprod_app in *.
    set (P := rprod l) in *. clearbody P. set (n := INR (length l)) in *. clearbody n. clear L.
    change (bpow radix2 (-24)) with (/ 16777216)%R in *.
    pose proof (bpow_gt_0 radix2 (-124)) as B0.
    assert (NP : (0 < Rabs (P * val a))%R) by lra.
    assert (Eq : (val s * val a = P * val a + (val s - P) * val a)%R) by ring.
    assert (Ee : (Rabs ((val s - P) * val a) <= 1.1 * n * / 16777216 * Rabs (P * val a))%R).
    { rewrite !Rabs_mult. rewrite <- Rmult_assoc. apply Rmult_le_compat_r; [apply Rabs_pos|exact Hs]. }
    assert (Es : (1.1 * n * / 16777216 * Rabs (P * val a) <= 0.1 * Rabs (P * val a))%R).
    { apply Rmult_le_compat_r; lra. }
    set (Q := (P * val a)%R) in *. clearbody Q. set (e := ((val s - P) * val a)%R) in *. clearbody e.
    pose proof (Rabs_triang Q e) as T1. pose proof (Rabs_triang_inv Q (- e)) as T2. rewrite Rabs_Ropp in T2.
    replace (Q - - e)%R with (Q + e)%R in T2 by ring.
    assert (D : (bpow radix2 127 = 2 * bpow radix2 126)%R) by (change 127 with (1 + 126); rewrite bpow_plus; reflexivity).
    assert (D2 : (bpow radix2 (-124) = 4 * bpow radix2 (-126))%R) by (change (-124) with (2 + -126); rewrite bpow_plus; reflexivity).
    pose proof (bpow_gt_0 radix2 (-126)) as B1.
    destruct (fmul_R s a Fs Fa') as [A1 A2].
    { apply (small_lt_128 127); [lia|]. rewrite Eq, D. lra. }
    split; [exact A1|]. rewrite A2.
    assert (R : (Rabs (rnd (val s * val a) - val s * val a) <= / 16777216 * Rabs (val s * val a))%R).
    { apply rnd_rel. rewrite Eq. lra. }
    rewrite Eq in R |- *.
    replace (rnd (Q + e) - Q)%R with ((rnd (Q + e) - (Q + e)) + e)%R by ring.
    eapply Rle_trans; [apply Rabs_triang|]. lra.
Qed.

(** ** Constants *)

Lemma const_values :
  (fin F32_MAX /\ val F32_MAX = bpow radix2 128 - bpow radix2 104)%R /\
  (fin F32_MIN /\ val F32_MIN = - (bpow radix2 128 - bpow radix2 104))%R /\
  (fin F32_MIN_POSITIVE /\ val F32_MIN_POSITIVE = bpow radix2 (-126))%R /\
  (fin F32_EPSILON /\ val F32_EPSILON = bpow radix2 (-23))%R.
Proof.
  split; [|split; [|split]]; apply val_lit; try lia; try reflexivity; unfold bval.
  - change (bsign 0x7F7FFFFF =? 0) with true. change (bexp 0x7F7FFFFF =? 0) with false. change (bexp 0x7F7FFFFF) with 254. change (bman 0x7F7FFFFF) with 8388607. cbv iota.
    change (254 - 150) with 104. change 128 with (24 + 104). rewrite bpow_plus. change (bpow radix2 24) with 16777216%R. change (2 ^ 23 + 8388607) with 16777215. ring.
  - change (bsign 0xFF7FFFFF =? 0) with false. change (bexp 0xFF7FFFFF =? 0) with false. change (bexp 0xFF7FFFFF) with 254. change (bman 0xFF7FFFFF) with 8388607. cbv iota.
    change (254 - 150) with 104. change 128 with (24 + 104). rewrite bpow_plus. change (bpow radix2 24) with 16777216%R. change (2 ^ 23 + 8388607) with 16777215. ring.
  - change (bsign 0x00800000 =? 0) with true. change (bexp 0x00800000 =? 0) with false. change (bexp 0x00800000) with 1. change (bman 0x00800000) with 0. cbv iota.
    change (1 - 150) with (-149). change (-126) with (23 + -149). rewrite bpow_plus. change (bpow radix2 23) with 8388608%R. change (2 ^ 23 + 0) with 8388608. ring.
  - change (bsign 0x34000000 =? 0) with true. change (bexp 0x34000000 =? 0) with false. change (bexp 0x34000000) with 104. change (bman 0x34000000) with 0. cbv iota.
    change (104 - 150) with (-46). change (-23) with (23 + -46). rewrite bpow_plus. change (bpow radix2 23) with 8388608%R. change (2 ^ 23 + 0) with 8388608. ring.
Qed.

Lemma max_extreme : forall x, fin x -> (val F32_MIN <= val x <= val F32_MAX)%R.
Proof.
  intros x F. destruct const_values as ((_ & ->) & (_ & ->) & _).
  pose proof (abs_B2R_le_emax_minus_prec 24 128 prec24 x) as H. change (128 - 24) with 104 in H. change (B2R 24 128 x) with (val x) in H.
  apply Rabs_le_inv in H. lra.
Qed.

Lemma min_positive_least : forall x, fin x -> bexp (to_bits x) <> 0 -> (val F32_MIN_POSITIVE <= Rabs (val x))%R.
Proof.
  intros x F B. destruct const_values as (_ & _ & (_ & ->) & _). pose proof (abs_normal_bounds x F B) as A.
  pose proof (bexp_range (to_bits x)). eapply Rle_trans; [|apply A]. apply bpow_le. lia.
Qed.

(** 1 + EPSILON is the next float above 1. *)
Lemma epsilon_gap : forall {E : Env}, (fin (fadd F32_ONE F32_EPSILON) /\ val (fadd F32_ONE F32_EPSILON) = 1 + val F32_EPSILON)%R /\
  (forall x, fin x -> (1 < val x)%R -> (1 + val F32_EPSILON <= val x)%R).
Proof.
  intros E. destruct const_values as (_ & _ & _ & (Fe & Ve)). destruct one_val as [F1 V1]. rewrite Ve.
  assert (Fm : fmt (1 + bpow radix2 (-23))).
  { replace (1 + bpow radix2 (-23))%R with (IZR 8388609 * bpow radix2 (-23))%R.
    - apply fmt_scaled; lia.
    - change (bpow radix2 (-23)) with (/ 8388608)%R. lra. }
  split.
  - pose proof (fadd_R F32_ONE F32_EPSILON F1 Fe) as A. rewrite V1, Ve, (rnd_fmt _ Fm) in A. apply A.
    change (bpow radix2 (-23)) with (/ 8388608)%R. rewrite Rabs_pos_eq by lra. apply Rlt_le_trans with (bpow radix2 1); [bpow_lit; lra|apply bpow_le; lia].
  - intros x F L. pose proof (succ_le_lt radix2 (FLT_exp (-149) 24) 1 (val x)) as S.
    assert (S1 : succ radix2 (FLT_exp (-149) 24) 1 = (1 + bpow radix2 (-23))%R).
    { change 1%R with (bpow radix2 0) at 1. rewrite succ_eq_pos by apply bpow_ge_0. rewrite ulp_bpow. reflexivity. }
    rewrite S1 in S. apply S; [|apply fmt_val|exact L]. change 1%R with (bpow radix2 0). apply generic_format_bpow. unfold FLT_exp. lia.
Qed.

Lemma ten_exps :
  (bpow radix2 (F32_MIN_EXP - 1) = val F32_MIN_POSITIVE)%R /\
  (bpow radix2 (F32_MAX_EXP - 1) <= val F32_MAX < bpow radix2 F32_MAX_EXP)%R /\
  (bpow (Build_radix 10 eq_refl) (F32_MIN_10_EXP - 1) < val F32_MIN_POSITIVE <= bpow (Build_radix 10 eq_refl) F32_MIN_10_EXP)%R /\
  (bpow (Build_radix 10 eq_refl) F32_MAX_10_EXP <= val F32_MAX < bpow (Build_radix 10 eq_refl) (F32_MAX_10_EXP + 1))%R.
Proof.
  destruct const_values as ((_ & ->) & _ & (_ & ->) & _). unfold F32_MIN_EXP, F32_MAX_EXP, F32_MIN_10_EXP, F32_MAX_10_EXP.
  split; [reflexivity|]. split; [|split].
  - pose proof (bpow_gt_0 radix2 104). pose proof (bpow_le radix2 104 127 ltac:(lia)).
    assert (D : (bpow radix2 128 = 2 * bpow radix2 127)%R) by (change 128 with (1 + 127); rewrite bpow_plus; reflexivity). change (128 - 1) with 127. lra.
  - change (-37 - 1) with (-38). unfold bpow. cbn [radix_val radix2]. 
    set (a := Z.pow_pos 10 38). set (b := Z.pow_pos 2 126). set (c := Z.pow_pos 10 37).
    assert (P : 0 < b < a /\ 0 < c <= b) by (vm_compute; repeat split; discriminate).
    split; [apply Rinv_lt_contravar|apply Rinv_le].
    + apply Rmult_lt_0_compat; apply IZR_lt; lia.
    + apply IZR_lt; lia.
    + apply IZR_lt; lia.
    + apply IZR_le; lia.
  - change (38 + 1) with 39. unfold bpow. cbn [radix_val radix2]. rewrite <- minus_IZR. split; [apply IZR_le|apply IZR_lt]; vm_compute; [discriminate|reflexivity].
Qed.

(** ** Classification *)

Lemma classify : forall x,
  (is_nan x = true <-> bexp (to_bits x) = 255 /\ bman (to_bits x) <> 0) /\
  (is_infinite x = true <-> bexp (to_bits x) = 255 /\ bman (to_bits x) = 0) /\
  (is_finite x = true <-> bexp (to_bits x) < 255) /\
  (sign_bit x = true <-> 2 ^ 31 <= to_bits x).
Proof.
  intros x. pose proof (to_bits_range x) as R. destruct (bits_decode (to_bits x) R) as (D1 & D2 & D3). rewrite from_to_bits in *.
  pose proof (bexp_range (to_bits x)) as B. rewrite sign_bit_ge, Z.leb_le.
  destruct (Z_lt_le_dec (bexp (to_bits x)) 255) as [L|L].
  - destruct (D1 L) as [F _]. assert (is_nan x = false /\ is_infinite x = false) as [N I] by (destruct x; try discriminate F; split; reflexivity).
    rewrite N, I. unfold fin in F. rewrite F. repeat split; intros; try discriminate; try lia; assumption.
  - assert (B5 : bexp (to_bits x) = 255) by lia. destruct (Z.eq_dec (bman (to_bits x)) 0) as [M|M].
    + specialize (D2 B5 M). set (b := to_bits x) in *. clearbody b. subst x. cbn.
      repeat split; intros; try discriminate; try lia; try reflexivity; assumption.
    + specialize (D3 B5 M). unfold nan in D3. assert (is_infinite x = false /\ is_finite x = false) as [I F] by (destruct x; try discriminate D3; split; reflexivity).
      rewrite D3, I, F. repeat split; intros; try discriminate; try lia; try reflexivity; assumption.
Qed.

(** ** The newtype forms *)

Lemma add_forms : forall {E : Env} x y,
  Forall (fun r => r = fadd x y)
    [f32_0 (F32_add (mkF32 x) (mkF32 y)); f32_0 (F32_add_f32 (mkF32 x) y); f32_0 (f32_add_F32 x (mkF32 y));
     f32_0 (F32_add_assign (mkF32 x) (mkF32 y)); f32_0 (F32_add_assign_f32 (mkF32 x) y); f32_add_assign_F32 x (mkF32 y)].
Proof. intros. repeat constructor. Qed.
Lemma sub_forms : forall {E : Env} x y,
  Forall (fun r => r = fsub x y)
    [f32_0 (F32_sub (mkF32 x) (mkF32 y)); f32_0 (F32_sub_f32 (mkF32 x) y); f32_0 (f32_sub_F32 x (mkF32 y));
     f32_0 (F32_sub_assign (mkF32 x) (mkF32 y)); f32_0 (F32_sub_assign_f32 (mkF32 x) y); f32_sub_assign_F32 x (mkF32 y)].
Proof. intros. repeat constructor. Qed.
Lemma mul_forms : forall {E : Env} x y,
  Forall (fun r => r = fmul x y)
    [f32_0 (F32_mul (mkF32 x) (mkF32 y)); f32_0 (F32_mul_f32 (mkF32 x) y); f32_0 (f32_mul_F32 x (mkF32 y));
     f32_0 (F32_mul_assign (mkF32 x) (mkF32 y)); f32_0 (F32_mul_assign_f32 (mkF32 x) y); f32_mul_assign_F32 x (mkF32 y)].
Proof. intros. repeat constructor. Qed.
Lemma div_forms : forall {E : Env} x y,
  Forall (fun r => r = fdiv x y)
    [f32_0 (F32_div (mkF32 x) (mkF32 y)); f32_0 (F32_div_f32 (mkF32 x) y); f32_0 (f32_div_F32 x (mkF32 y));
     f32_0 (F32_div_assign (mkF32 x) (mkF32 y)); f32_0 (F32_div_assign_f32 (mkF32 x) y); f32_div_assign_F32 x (mkF32 y)].
Proof. intros. repeat constructor. Qed.
Lemma rem_forms : forall {E : Env} x y,
  Forall (fun r => r = frem x y)
    [f32_0 (F32_rem (mkF32 x) (mkF32 y)); f32_0 (F32_rem_f32 (mkF32 x) y); f32_0 (f32_rem_F32 x (mkF32 y));
     f32_0 (F32_rem_assign (mkF32 x) (mkF32 y)); f32_0 (F32_rem_assign_f32 (mkF32 x) y)].
Proof. intros. repeat constructor. Qed.

Lemma forall_eq : forall (P : f32 -> Prop) r l, Forall (fun a => a = r) l -> P r -> Forall P l.
Proof. intros P r l H Q. induction H as [|a l -> H IH]; constructor; assumption. Qed.

Lemma add_all : forall {E : Env} x y, fin x -> fin y ->
  Forall (fun r => ieee r (val x + val y))
    [f32_0 (F32_add (mkF32 x) (mkF32 y)); f32_0 (F32_add_f32 (mkF32 x) y); f32_0 (f32_add_F32 x (mkF32 y));
     f32_0 (F32_add_assign (mkF32 x) (mkF32 y)); f32_0 (F32_add_assign_f32 (mkF32 x) y); f32_add_assign_F32 x (mkF32 y)].
Proof. intros E x y Fx Fy. eapply forall_eq; [apply add_forms|apply fadd_ieee; assumption]. Qed.
Lemma sub_all : forall {E : Env} x y, fin x -> fin y ->
  Forall (fun r => ieee r (val x - val y))
    [f32_0 (F32_sub (mkF32 x) (mkF32 y)); f32_0 (F32_sub_f32 (mkF32 x) y); f32_0 (f32_sub_F32 x (mkF32 y));
     f32_0 (F32_sub_assign (mkF32 x) (mkF32 y)); f32_0 (F32_sub_assign_f32 (mkF32 x) y); f32_sub_assign_F32 x (mkF32 y)].
Proof. intros E x y Fx Fy. eapply forall_eq; [apply sub_forms|apply fsub_ieee; assumption]. Qed.
Lemma mul_all : forall {E : Env} x y, fin x -> fin y ->
  Forall (fun r => ieee r (val x * val y))
    [f32_0 (F32_mul (mkF32 x) (mkF32 y)); f32_0 (F32_mul_f32 (mkF32 x) y); f32_0 (f32_mul_F32 x (mkF32 y));
     f32_0 (F32_mul_assign (mkF32 x) (mkF32 y)); f32_0 (F32_mul_assign_f32 (mkF32 x) y); f32_mul_assign_F32 x (mkF32 y)].
Proof. intros E x y Fx Fy. eapply forall_eq; [apply mul_forms|apply fmul_ieee; assumption]. Qed.

Lemma zero_form : forall y, fin y -> val y = 0%R -> y = f32_zero (sign_bit y).
Proof.
  intros y F V. destruct y as [s|s|s p H|s m e H]; try discriminate F; [reflexivity|].
  exfalso. revert V. unfold val, B2R. apply F2R_neq_0. destruct s; discriminate.
Qed.

Lemma div_all : forall {E : Env} x y, fin x -> fin y ->
  Forall (fun r => (val y <> 0%R -> ieee r (val x / val y)) /\
                   (val y = 0%R -> val x <> 0%R -> r = f32_inf (xorb (sign_bit x) (sign_bit y))) /\
                   (val y = 0%R -> val x = 0%R -> nan r))
    [f32_0 (F32_div (mkF32 x) (mkF32 y)); f32_0 (F32_div_f32 (mkF32 x) y); f32_0 (f32_div_F32 x (mkF32 y));
     f32_0 (F32_div_assign (mkF32 x) (mkF32 y)); f32_0 (F32_div_assign_f32 (mkF32 x) y); f32_div_assign_F32 x (mkF32 y)].
Proof.
  intros E x y Fx Fy. eapply forall_eq; [apply div_forms|]. cbv beta. split; [intros N; apply fdiv_ieee; assumption|].
  assert (Nx : is_nan x = false) by (destruct x; try discriminate Fx; reflexivity).
  split.
  - intros V W. rewrite (zero_form y Fy V) at 1. apply fdiv_zero; [exact Nx|].
    apply not_true_is_false. intros C. apply W. apply eq_iff in C. destruct C as (_ & _ & [B|(s & t & -> & _)]); [|reflexivity].
    apply to_bits_inj in B. subst x. reflexivity.
  - intros V W. rewrite (zero_form y Fy V). apply fdiv_zero; [exact Nx|].
    apply eq_iff. split; [exact Nx|]. split; [reflexivity|]. right. exists (sign_bit x), false. split; [apply zero_form; assumption|reflexivity].
Qed.

Lemma frem_edges : forall {E : Env} x y,
  (nan x \/ nan y -> nan (frem x y)) /\ (is_infinite x = true -> nan (frem x y)) /\
  (fin y -> val y = 0%R -> nan (frem x y)) /\ (fin x -> is_infinite y = true -> frem x y = x).
Proof.
  intros E x y. split; [|split; [|split]].
  - intros [H|H]; [destruct x; try discriminate H; apply nan_build|]. destruct y; try discriminate H. destruct x; apply nan_build.
  - intros H. destruct x; try discriminate H. destruct y; apply nan_build.
  - intros F V. rewrite (zero_form y F V). destruct x; apply nan_build.
  - intros F H. destruct y; try discriminate H. destruct x; try discriminate F; reflexivity.
Qed.

Lemma rem_all : forall {E : Env} x y,
  Forall (fun r =>
    (fin x -> fin y -> val y <> 0%R -> fin r /\ sign_bit r = sign_bit x /\
       val r = (val x - IZR (Ztrunc (val x / val y)) * val y)%R) /\
    (nan x \/ nan y \/ is_infinite x = true \/ (fin y /\ val y = 0%R) -> nan r) /\
    (fin x -> is_infinite y = true -> r = x))
    [f32_0 (F32_rem (mkF32 x) (mkF32 y)); f32_0 (F32_rem_f32 (mkF32 x) y); f32_0 (f32_rem_F32 x (mkF32 y));
     f32_0 (F32_rem_assign (mkF32 x) (mkF32 y)); f32_0 (F32_rem_assign_f32 (mkF32 x) y)].
Proof.
  intros E x y. eapply forall_eq; [apply rem_forms|]. cbv beta. destruct (frem_edges x y) as (E1 & E2 & E3 & E4).
  split; [|split].
  - intros Fx Fy N. destruct (frem_spec x y Fx Fy N) as (A & B & C & _). repeat split; assumption.
  - intros [H|[H|[H|[H1 H2]]]]; [apply E1; left; exact H|apply E1; right; exact H|apply E2, H|apply E3; assumption].
  - exact E4.
Qed.

Lemma arith_nan : forall {E : Env} x y, nan x \/ nan y ->
  Forall nan [f32_0 (F32_add (mkF32 x) (mkF32 y)); f32_0 (F32_add_f32 (mkF32 x) y); f32_0 (f32_add_F32 x (mkF32 y));
     f32_0 (F32_add_assign (mkF32 x) (mkF32 y)); f32_0 (F32_add_assign_f32 (mkF32 x) y); f32_add_assign_F32 x (mkF32 y);
     f32_0 (F32_sub (mkF32 x) (mkF32 y)); f32_0 (F32_sub_f32 (mkF32 x) y); f32_0 (f32_sub_F32 x (mkF32 y));
     f32_0 (F32_sub_assign (mkF32 x) (mkF32 y)); f32_0 (F32_sub_assign_f32 (mkF32 x) y); f32_sub_assign_F32 x (mkF32 y);
     f32_0 (F32_mul (mkF32 x) (mkF32 y)); f32_0 (F32_mul_f32 (mkF32 x) y); f32_0 (f32_mul_F32 x (mkF32 y));
     f32_0 (F32_mul_assign (mkF32 x) (mkF32 y)); f32_0 (F32_mul_assign_f32 (mkF32 x) y); f32_mul_assign_F32 x (mkF32 y);
     f32_0 (F32_div (mkF32 x) (mkF32 y)); f32_0 (F32_div_f32 (mkF32 x) y); f32_0 (f32_div_F32 x (mkF32 y));
     f32_0 (F32_div_assign (mkF32 x) (mkF32 y)); f32_0 (F32_div_assign_f32 (mkF32 x) y); f32_div_assign_F32 x (mkF32 y)].
Proof.
  intros E x y H. repeat apply Forall_cons; try apply Forall_nil;
    first [exact (fadd_nan x y H)|exact (fsub_nan x y H)|exact (fmul_nan x y H)|exact (fdiv_nan x y H)].
Qed.

Lemma neg_all : forall x,
  to_bits (f32_0 (F32_neg (mkF32 x))) = (if 2 ^ 31 <=? to_bits x then to_bits x - 2 ^ 31 else to_bits x + 2 ^ 31) /\
  val (f32_0 (F32_neg (mkF32 x))) = (- val x)%R /\ F32_neg (F32_neg (mkF32 x)) = mkF32 x.
Proof.
  intros x. unfold F32_neg. cbn [f32_0]. rewrite P_InvSqrt.fneg_bits, sign_bit_ge. split; [reflexivity|].
  split; [apply fneg_val|]. rewrite fneg_involutive. reflexivity.
Qed.

Lemma cmp_all : forall x y,
  Forall (fun r => (is_nan x = false -> is_nan y = false -> r = Some (Rcompare (key x) (key y))) /\ (r = None <-> nan x \/ nan y))
    [F32_partial_cmp (mkF32 x) (mkF32 y); F32_partial_cmp_f32 (mkF32 x) y; f32_partial_cmp_F32 x (mkF32 y)].
Proof.
  intros x y. repeat apply Forall_cons; try apply Forall_nil; (split; [intros; apply cmp_key; assumption|apply cmp_none]).
Qed.

Lemma eq_all : forall x y,
  Forall (fun r : bool => (r = true <-> is_nan x = false /\ is_nan y = false /\
      (to_bits x = to_bits y \/ (exists s t, x = f32_zero s /\ y = f32_zero t))))
    [F32_eq (mkF32 x) (mkF32 y); F32_eq_f32 (mkF32 x) y; f32_eq_F32 x (mkF32 y)].
Proof. intros x y. repeat apply Forall_cons; try apply Forall_nil; apply eq_iff. Qed.

Lemma cmp_swap : forall x y, F32_partial_cmp y x = option_map CompOpp (F32_partial_cmp x y).
Proof.
  intros [x] [y]. unfold F32_partial_cmp. cbn [f32_0]. destruct (is_nan x) eqn:Nx; [|destruct (is_nan y) eqn:Ny].
  - rewrite (proj2 (cmp_none y x)) by (right; exact Nx). rewrite (proj2 (cmp_none x y)) by (left; exact Nx). reflexivity.
  - rewrite (proj2 (cmp_none y x)) by (left; exact Ny). rewrite (proj2 (cmp_none x y)) by (right; exact Ny). reflexivity.
  - rewrite !cmp_key by assumption. cbn [option_map]. rewrite <- Rcompare_sym. reflexivity.
Qed.

Lemma cmp_trans : forall x y z, F32_partial_cmp x y = Some Lt -> F32_partial_cmp y z = Some Lt -> F32_partial_cmp x z = Some Lt.
Proof.
  intros [x] [y] [z]. unfold F32_partial_cmp. cbn [f32_0]. intros A B.
  assert (Nx : is_nan x = false) by (apply not_true_is_false; intros C; rewrite (proj2 (cmp_none x y)) in A by (left; exact C); discriminate).
  assert (Ny : is_nan y = false) by (apply not_true_is_false; intros C; rewrite (proj2 (cmp_none x y)) in A by (right; exact C); discriminate).
  assert (Nz : is_nan z = false) by (apply not_true_is_false; intros C; rewrite (proj2 (cmp_none y z)) in B by (right; exact C); discriminate).
  rewrite cmp_key in * by assumption. injection A as A. injection B as B. apply Rcompare_Lt_inv in A. apply Rcompare_Lt_inv in B.
  rewrite Rcompare_Lt by lra. reflexivity.
Qed.

Lemma map_unwrap : forall l, map f32_from_F32 (map F32_from_f32 l) = l.
Proof. intros l. rewrite map_map. cbn. apply map_id. Qed.

Lemma iter_sum_error : forall {E : Env} l, Forall fin l -> Z.of_nat (length l) <= 2 ^ 20 -> (rabssum l <= bpow radix2 126)%R ->
  fin (f32_0 (F32_iter_sum (map F32_from_f32 l))) /\
  (Rabs (val (f32_0 (F32_iter_sum (map F32_from_f32 l))) - rsum l) <= 1.1 * INR (length l) * bpow radix2 (-24) * rabssum l)%R.
Proof. intros E l. unfold F32_iter_sum. cbn [f32_0]. rewrite map_unwrap. apply sum_abs_error. Qed.
Lemma iter_prod_error : forall {E : Env} l, Forall fin l -> Z.of_nat (length l) <= 2 ^ 20 ->
  (forall k, (k <= length l)%nat -> (bpow radix2 (-124) <= Rabs (rprod (firstn k l)) <= bpow radix2 126)%R) ->
  fin (f32_0 (F32_iter_product (map F32_from_f32 l))) /\
  (Rabs (val (f32_0 (F32_iter_product (map F32_from_f32 l))) - rprod l) <= 1.1 * INR (length l) * bpow radix2 (-24) * Rabs (rprod l))%R.
Proof. intros E l. unfold F32_iter_product. cbn [f32_0]. rewrite map_unwrap. apply prod_rel_error. Qed.

Lemma fold_nan : forall {E : Env} (op : f32 -> f32 -> f32), (forall a b, nan a \/ nan b -> nan (op a b)) ->
  forall l s, nan s \/ Exists nan l -> nan (fold_left op l s).
Proof.
  intros E op H l. induction l as [|a l IH]; intros s [K|K]; cbn [fold_left].
  - exact K.
  - inversion K.
  - apply IH. left. apply H. left. exact K.
  - inversion K as [? ? A|? ? A]; subst; apply IH; [left; apply H; right; exact A|right; exact A].
Qed.

Lemma iter_nan : forall {E : Env} l, Exists nan l ->
  nan (f32_0 (F32_iter_sum (map F32_from_f32 l))) /\ nan (f32_0 (F32_iter_product (map F32_from_f32 l))).
Proof.
  intros E l H. unfold F32_iter_sum, F32_iter_product. cbn [f32_0]. rewrite map_unwrap. unfold F32_sum, F32_product.
  split; apply fold_nan; try (right; exact H); intros a b K; [apply fadd_nan|apply fmul_nan]; exact K.
Qed.

Lemma const_spec :
  (fin F32_MIN /\ fin F32_MAX /\ forall x, fin x -> val F32_MIN <= val x <= val F32_MAX)%R /\
  (fin F32_MIN_POSITIVE /\ forall x, fin x -> bexp (to_bits x) <> 0%Z -> val F32_MIN_POSITIVE <= Rabs (val x))%R /\
  (val F32_MAX = bpow radix2 128 - bpow radix2 104 /\ val F32_MIN = - val F32_MAX /\
   val F32_MIN_POSITIVE = bpow radix2 (-126) /\ val F32_EPSILON = bpow radix2 (-23))%R.
Proof.
  destruct const_values as ((A1 & A2) & (B1 & B2) & (C1 & C2) & (D1 & D2)).
  split; [split; [exact B1|split; [exact A1|exact max_extreme]]|].
  split; [split; [exact C1|exact min_positive_least]|].
  rewrite A2, B2, C2, D2. repeat split.
Qed.

(** Every decimal with [F32_DIGITS] digits survives a round trip: 10^6 < 2^(24-1). *)
Lemma digits_fit : F32_RADIX = 2 /\ (10 ^ F32_DIGITS < F32_RADIX ^ (F32_MANTISSA_DIGITS - 1) < 10 ^ (F32_DIGITS + 1)) /\
  (forall x, fin x -> exists m e, Z.abs m < F32_RADIX ^ F32_MANTISSA_DIGITS /\ val x = (IZR m * bpow radix2 e)%R).
Proof.
  split; [reflexivity|]. split; [split; reflexivity|].
  intros x F. destruct x as [s|s|s p H|s m e H]; try discriminate F.
  - exists 0, 0. split; [reflexivity|]. change (val (B754_zero s : f32)) with 0%R. ring.
  - exists (cond_Zopp s (Z.pos m)), e. split; [|reflexivity].
    rewrite abs_cond_Zopp. clear F.
    unfold F32_RADIX, F32_MANTISSA_DIGITS. unfold SpecFloat.bounded in H. apply andb_prop in H. destruct H as [H _].
    apply Zeq_bool_eq in H. unfold SpecFloat.fexp, SpecFloat.emin in H. rewrite Digits.Zpos_digits2_pos in H.
    pose proof (Digits.Zdigits_correct radix2 (Z.pos m)) as D. destruct D as [_ D].
    eapply Z.lt_le_trans; [exact D|]. change (radix2 ^ Digits.Zdigits radix2 (Z.pos m) <= 2 ^ 24)%Z. apply (Zpower_le radix2). lia.
Qed.

Lemma classify_all : forall x,
  (F32_is_nan (mkF32 x) = true <-> bexp (to_bits x) = 255 /\ bman (to_bits x) <> 0) /\
  (F32_is_infinite (mkF32 x) = true <-> bexp (to_bits x) = 255 /\ bman (to_bits x) = 0) /\
  (F32_is_finite (mkF32 x) = true <-> bexp (to_bits x) < 255) /\
  (F32_is_sign_negative (mkF32 x) = true <-> 2 ^ 31 <= to_bits x) /\
  (F32_is_sign_positive (mkF32 x) = true <-> to_bits x < 2 ^ 31).
Proof.
  intros x. destruct (classify x) as (A & B & C & D). split; [exact A|]. split; [exact B|]. split; [exact C|]. split; [exact D|].
  unfold F32_is_sign_positive. cbn [f32_0]. destruct (sign_bit x); cbn [negb].
  - split; [discriminate|]. intros L. pose proof (proj1 D eq_refl). lia.
  - split; [|reflexivity]. intros _. destruct (Z_lt_le_dec (to_bits x) (2 ^ 31)) as [L|L]; [exact L|]. apply D in L. discriminate.
Qed.

Lemma num_zero : forall {E : Env} x,
  (F32_is_zero (mkF32 x) = true <-> fin x /\ val x = 0%R) /\
  (F32_is_one (mkF32 x) = true <-> to_bits x = 0x3F800000) /\
  (is_nan x = false -> F32_eq (F32_add (mkF32 x) F32_zero) (mkF32 x) = true /\ F32_eq (F32_add F32_zero (mkF32 x)) (mkF32 x) = true) /\
  (is_nan x = false -> F32_mul (mkF32 x) F32_one = mkF32 x /\ F32_mul F32_one (mkF32 x) = mkF32 x) /\
  (normal_pos x -> (val x <= bpow radix2 126)%R -> (1 <= val x * val (f32_0 (F32_trait_inv (mkF32 x))) <= 9 / 8)%R) /\
  F32_default = F32_zero.
Proof.
  intros E x. destruct one_val as [F1 V1].
  split; [|split; [|split; [|split; [|split]]]].
  - unfold F32_is_zero, F32_eq. cbn [f32_0]. rewrite eq_iff. split.
    + intros (_ & N & [B|(s & t & _ & ->)]); [apply to_bits_inj in B; subst x; split; reflexivity|split; reflexivity].
    + intros [F V]. split; [reflexivity|]. split; [destruct x; try discriminate F; reflexivity|]. right. exists false, (sign_bit x).
      split; [reflexivity|apply zero_form; assumption].
  - unfold F32_is_one, F32_eq. cbn [f32_0]. rewrite eq_iff. split.
    + intros (_ & N & [B|(s & t & C & _)]); [symmetry; exact B|]. exfalso.
      assert (Z0 : val F32_ONE = 0%R) by (rewrite C; reflexivity). lra.
    + intros B. assert (X : x = F32_ONE) by (apply to_bits_inj; exact B). subst x. repeat split; try reflexivity. left. reflexivity.
  - intros N. unfold F32_eq, F32_add, F32_zero. cbn [f32_0]. 
    destruct x as [s|s|s p H|s m e H]; try discriminate N.
    + destruct s; split; reflexivity.
    + destruct s; split; reflexivity.
    + change (fadd (B754_finite s m e H) F32_ZERO) with (B754_finite s m e H : f32).
      change (fadd F32_ZERO (B754_finite s m e H)) with (B754_finite s m e H : f32).
      assert (Q : feq (B754_finite s m e H) (B754_finite s m e H) = true) by (apply eq_iff; repeat split; left; reflexivity).
      split; exact Q.
  - intros N. unfold F32_mul, F32_one. cbn [f32_0]. rewrite fmul_one_id by exact N. split; [reflexivity|].
    f_equal. rewrite <- (fmul_one_id x N) at 2.
    destruct x as [s|s|s p H|s m e H]; try discriminate N.
    + destruct s; reflexivity.
    + destruct s; reflexivity.
    + apply fin_dec_eq.
      * assert (A := fmul_R F32_ONE (B754_finite s m e H) (proj1 one_val) eq_refl). rewrite (proj2 one_val), Rmult_1_l in A.
        apply A. rewrite rnd_fmt by apply fmt_val. apply abs_B2R_lt_emax.
      * rewrite fmul_one_id by exact N. reflexivity.
      * assert (A := fmul_R F32_ONE (B754_finite s m e H) (proj1 one_val) eq_refl). rewrite (proj2 one_val), Rmult_1_l in A.
        rewrite (proj2 (A ltac:(rewrite rnd_fmt by apply fmt_val; apply abs_B2R_lt_emax))), rnd_fmt by apply fmt_val.
        rewrite fmul_one_id by exact N. reflexivity.
      * rewrite !fmul_sign.
        -- destruct (sign_bit (B754_finite s m e H)); reflexivity.
        -- rewrite fmul_one_id by exact N. reflexivity.
        -- assert (A := fmul_R F32_ONE (B754_finite s m e H) (proj1 one_val) eq_refl). rewrite (proj2 one_val), Rmult_1_l in A.
           destruct A as [A _]; [rewrite rnd_fmt by apply fmt_val; apply abs_B2R_lt_emax|].
           destruct (fmul F32_ONE (B754_finite s m e H)); try discriminate A; reflexivity.
  - intros Px Lx. apply inv_accuracy; assumption.
  - reflexivity.
Qed.
