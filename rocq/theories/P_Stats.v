(** * Proofs: statistics *)

From Coq Require Import ZArith Reals Bool List Lia Lra Psatz.
From Flocq Require Import Core IEEE754.BinarySingleNaN IEEE754.Binary IEEE754.Bits Plus_error.
From Verif Require Import Base Spec Float Stats F32Lemmas BitLemmas P_Trunc P_Floor Literals ErrLemmas P_RoundEdge
  NanLemmas P_Euclid P_Roots P_InvSqrt P_Recip P_Vector P_VecInt P_SumSq P_VecF32.
Import ListNotations.
Open Scope Z_scope.

(** ** mean *)

Lemma mean_loop_spec : forall {E : Env} l n s, 0 <= n -> n + Z.of_nat (length l) < 2 ^ 31 ->
  mean_loop l n s = Ok (n + Z.of_nat (length l), fold_left fadd l s).
Proof.
  intros E l. induction l as [|a l IH]; intros n s N H.
  - simpl. rewrite Z.add_0_r. reflexivity.
  - change (length (a :: l)) with (S (length l)) in *. rewrite Nat2Z.inj_succ in *. simpl.
    assert (A : arith i32 (n + 1) = Ok (n + 1)).
    { apply arith_machine; [right; right; left; reflexivity|]. unfold fits. cbn. lia. }
    rewrite A. cbn [bind]. rewrite IH by lia. f_equal. f_equal. lia.
Qed.

Lemma mean_spec : forall {E : Env} l, Z.of_nat (length l) < 2 ^ 31 ->
  mean l = Ok (fdiv (fold_left fadd l (f32_zero false)) (f32_of_Z (Z.of_nat (length l)))).
Proof.
  intros E l H. unfold mean. rewrite mean_loop_spec by lia. reflexivity.
Qed.

Lemma mean_loop_panic : forall {E : Env} l n s, overflow_checks = true -> 0 <= n < 2 ^ 31 ->
  2 ^ 31 <= n + Z.of_nat (length l) -> mean_loop l n s = Panic.
Proof.
  intros E l. induction l as [|a l IH]; intros n s O N H.
  - change (length []) with 0%nat in H. lia.
  - change (length (a :: l)) with (S (length l)) in *. rewrite Nat2Z.inj_succ in *. simpl mean_loop.
    destruct (Z.eq_dec (n + 1) (2 ^ 31)) as [Q|Q].
    + rewrite Q. unfold arith. change (in_range i32 (2 ^ 31)) with false. rewrite O. reflexivity.
    + assert (A : arith i32 (n + 1) = Ok (n + 1)).
      { apply arith_machine; [right; right; left; reflexivity|]. unfold fits. cbn. lia. }
      rewrite A. cbn [bind]. apply IH; trivial; lia.
Qed.

Lemma mean_long_panic : forall {E : Env} l, overflow_checks = true -> 2 ^ 31 <= Z.of_nat (length l) -> mean l = Panic.
Proof. intros E l O H. unfold mean. rewrite mean_loop_panic; trivial; lia. Qed.

Lemma mean_empty : forall {E : Env}, exists m, mean [] = Ok m /\ nan m.
Proof.
  intros E. eexists. split; [reflexivity|]. refine (build_nan_nan _).
Qed.

(** Addition has a relative error even in the subnormal range. *)
Lemma rnd_add_rel : forall x y, fmt x -> fmt y -> (Rabs (rnd (x + y) - (x + y)) <= u24 * Rabs (x + y))%R.
Proof.
  intros x y Fx Fy. destruct (Rle_lt_dec (bpow radix2 (-126)) (Rabs (x + y))) as [H|H].
  - rewrite <- u24_eq. apply rnd_rel. assumption.
  - rewrite rnd_fmt.
    + unfold Rminus. rewrite Rplus_opp_r, Rabs_R0. apply Rmult_le_pos; [unfold u24; lra|apply Rabs_pos].
    + apply (FLT_format_plus_small radix2 (-149) 24 x y Fx Fy). apply Rlt_le. apply Rlt_le_trans with (1 := H).
      apply bpow_le. lia.
Qed.

Lemma rsum_app : forall l a, rsum (l ++ [a]) = (rsum l + val a)%R.
Proof. intros l a. induction l as [|b l IH]; simpl; [lra|]. unfold rsum in *. simpl. rewrite IH. lra. Qed.

Lemma rsum_bound : forall l M, (0 <= M)%R -> (forall a, In a l -> Rabs (val a) <= M)%R ->
  (Rabs (rsum l) <= INR (length l) * M)%R.
Proof.
  intros l M M0. induction l as [|a l IH]; intros H.
  - simpl. rewrite Rabs_R0. lra.
  - change (rsum (a :: l)) with (val a + rsum l)%R. change (length (a :: l)) with (S (length l)). rewrite S_INR.
    eapply Rle_trans; [apply Rabs_triang|]. specialize (IH (fun b J => H b (or_intror J))).
    specialize (H a (or_introl eq_refl)). lra.
Qed.

Lemma INR_small : forall n, Z.of_nat n <= 2 ^ 20 -> (INR n <= 1048576)%R.
Proof. intros n H. rewrite INR_IZR_INZ. apply IZR_le. lia. Qed.

(** Left-to-right summation. *)
Lemma sum_error : forall {E : Env} l M, (0 <= M)%R -> Forall fin l -> (forall a, In a l -> Rabs (val a) <= M)%R ->
  Z.of_nat (length l) <= 2 ^ 20 -> (INR (length l) * M <= bpow radix2 126)%R ->
  let s := fold_left fadd l (f32_zero false) in
  fin s /\ (Rabs (val s - rsum l) <= INR (length l) * INR (length l) * M * u24)%R.
Proof.
  intros E l M M0. induction l as [|a l IH] using rev_ind; intros F B K L.
  - simpl. split; [reflexivity|]. unfold rsum. simpl. change (val (f32_zero false)) with 0%R.
    rewrite Rminus_0_r, Rabs_R0. lra.
  - rewrite app_length in *. change (length [a]) with 1%nat in *. rewrite Nat.add_1_r in *.
    rewrite S_INR in *. rewrite Nat2Z.inj_succ in K.
    apply Forall_app in F. destruct F as [F Fa]. inversion Fa as [|? ? Fa' _]; subst. clear Fa.
    pose proof (pos_INR (length l)) as N0. pose proof (INR_small (length l) ltac:(lia)) as NS.
    assert (NM : (0 <= INR (length l) * M)%R) by (apply Rmult_le_pos; assumption).
    destruct IH as [Fs Hs]; trivial.
    { intros b J. apply B. apply in_or_app. left. assumption. }
    { lia. } { lra. }
    cbv zeta in *. rewrite fold_left_app. cbn [fold_left].
    set (s := fold_left fadd l (f32_zero false)) in *.
    assert (Ba : (Rabs (val a) <= M)%R) by (apply B; apply in_or_app; right; left; reflexivity).
    pose proof (rsum_bound l M M0 (fun b J => B b (in_or_app _ _ _ (or_introl J)))) as BS.
    rewrite rsum_app. set (S := rsum l) in *. set (n := INR (length l)) in *.
    assert (U : u24 = (/ 16777216)%R) by reflexivity.
    assert (Eb : (n * n * M * u24 <= n * M)%R).
    { rewrite U. replace (n * n * M * / 16777216)%R with (n * M * (n * / 16777216))%R by ring.
      rewrite <- (Rmult_1_r (n * M)) at 2. apply Rmult_le_compat_l; lra. }
    assert (Eb' : (Rabs (val s - S) <= / 16 * (n * M))%R).
    { eapply Rle_trans; [exact Hs|]. rewrite U.
      replace (n * n * M * / 16777216)%R with (n * M * (n * / 16777216))%R by ring.
      rewrite (Rmult_comm (/ 16)). apply Rmult_le_compat_l; lra. }
    assert (T : (Rabs (val s + val a) <= (n + 1) * M + n * n * M * u24)%R).
    { replace (val s + val a)%R with ((val s - S) + (S + val a))%R by ring.
      eapply Rle_trans; [apply Rabs_triang|]. pose proof (Rabs_triang S (val a)). lra. }
    assert (D : (bpow radix2 127 = 2 * bpow radix2 126)%R) by (change 127 with (1 + 126); rewrite bpow_plus; reflexivity).
    destruct (fadd_R s a Fs Fa') as [A1 A2].
    { apply (small_lt_128 127); [lia|]. rewrite D. lra. }
    split; [exact A1|]. rewrite A2.
    pose proof (rnd_add_rel (val s) (val a) (fmt_val s) (fmt_val a)) as R.
    replace (rnd (val s + val a) - (S + val a))%R with ((rnd (val s + val a) - (val s + val a)) + (val s - S))%R by ring.
    eapply Rle_trans; [apply Rabs_triang|].
    apply Rle_trans with (u24 * ((n + 1) * M + n * n * M * u24) + n * n * M * u24)%R.
    { apply Rplus_le_compat; [|exact Hs]. eapply Rle_trans; [exact R|]. apply Rmult_le_compat_l; [unfold u24; lra|exact T]. }
    replace ((n + 1) * (n + 1) * M * u24)%R with (u24 * ((n + 1) * M + n * M) + n * n * M * u24)%R by ring.
    apply Rplus_le_compat_r. apply Rmult_le_compat_l; [unfold u24; lra|]. lra.
Qed.

Lemma mean_error : forall {E : Env} l M, (0 <= M)%R -> Forall fin l -> (forall a, In a l -> Rabs (val a) <= M)%R ->
  0 < Z.of_nat (length l) <= 2 ^ 20 -> (INR (length l) * M <= bpow radix2 126)%R ->
  exists m, mean l = Ok m /\ fin m /\
    (Rabs (val m - rsum l / INR (length l)) <= (INR (length l) + 2) * M * bpow radix2 (-24) + bpow radix2 (-150))%R.
Proof.
  intros E l M M0 F B K L. destruct (sum_error l M M0 F B ltac:(lia) L) as [Fs Hs]. cbv zeta in *.
  set (s := fold_left fadd l (f32_zero false)) in *.
  pose proof (rsum_bound l M M0 B) as BS.
  destruct (f32_of_Z_exact (Z.of_nat (length l))) as [Fn Vn]; [lia|]. rewrite <- INR_IZR_INZ in Vn.
  pose proof (INR_small (length l) ltac:(lia)) as NS.
  assert (N1 : (1 <= INR (length l))%R) by (change 1%R with (INR 1); apply le_INR; lia).
  rewrite mean_spec by lia. fold s. eexists. split; [reflexivity|].
  set (n := INR (length l)) in *. set (S := rsum l) in *. rewrite u24_eq.
  assert (U : u24 = (/ 16777216)%R) by reflexivity.
  assert (Q : (Rabs (val s / n - S / n) <= n * M * u24)%R).
  { replace (val s / n - S / n)%R with ((val s - S) * / n)%R by (field; lra).
    rewrite Rabs_mult, Rabs_inv, (Rabs_pos_eq n) by lra.
    apply Rmult_le_reg_r with n; [lra|]. rewrite Rmult_assoc, Rinv_l, Rmult_1_r by lra. lra. }
  assert (SM : (Rabs (S / n) <= M)%R).
  { unfold Rdiv. rewrite Rabs_mult, Rabs_inv, (Rabs_pos_eq n) by lra.
    apply Rmult_le_reg_r with n; [lra|]. rewrite Rmult_assoc, Rinv_l, Rmult_1_r by lra. lra. }
  assert (nMu : (n * M * u24 <= / 16 * M)%R).
  { rewrite U. replace (n * M * / 16777216)%R with (n * / 16777216 * M)%R by ring. apply Rmult_le_compat_r; lra. }
  assert (T : (Rabs (val s / n) <= 17 / 16 * M)%R).
  { replace (val s / n)%R with ((val s / n - S / n) + S / n)%R by ring.
    eapply Rle_trans; [apply Rabs_triang|]. lra. }
  assert (ML : (M <= bpow radix2 126)%R).
  { apply Rle_trans with (n * M)%R; [|assumption]. rewrite <- (Rmult_1_l M) at 1. apply Rmult_le_compat_r; lra. }
  assert (D : (bpow radix2 127 = 2 * bpow radix2 126)%R) by (change 127 with (1 + 126); rewrite bpow_plus; reflexivity).
  destruct (fdiv_R s (f32_of_Z (Z.of_nat (length l))) Fs Fn) as [A1 A2].
  { rewrite Vn. lra. } { rewrite Vn. apply (small_lt_128 127); [lia|]. rewrite D. lra. }
  rewrite Vn in A2. split; [exact A1|]. rewrite A2.
  pose proof (rnd_err_mixed (val s / n)) as R. rewrite u24_eq in R.
  replace (rnd (val s / n) - S / n)%R with ((rnd (val s / n) - val s / n) + (val s / n - S / n))%R by ring.
  eapply Rle_trans; [apply Rabs_triang|].
  assert (u24 * Rabs (val s / n) <= u24 * (2 * M))%R by (apply Rmult_le_compat_l; [unfold u24; lra|lra]).
  replace ((n + 2) * M * u24)%R with (n * M * u24 + u24 * (2 * M))%R by ring. lra.
Qed.

(** ** variance *)

(** NaN, or without the sign bit. *)
Definition nonneg (x : f32) : Prop := nan x \/ sign_bit x = false.

Lemma sq_nonneg : forall {E : Env} x, nonneg (fmul x x).
Proof.
  intros E x. destruct (is_nan x) eqn:N.
  - left. apply fmul_nan. left. exact N.
  - right. apply sq_sign. exact N.
Qed.

Lemma fadd_nonneg : forall {E : Env} x y, nonneg x -> nonneg y -> nonneg (fadd x y).
Proof.
  intros E x y [Nx|Sx] Hy; [left; apply fadd_nan; auto|]. destruct Hy as [Ny|Sy]; [left; apply fadd_nan; auto|].
  destruct (is_nan x) eqn:Nx; [left; apply fadd_nan; auto|]. destruct (is_nan y) eqn:Ny; [left; apply fadd_nan; auto|].
  right. destruct (is_finite x) eqn:Fx; destruct (is_finite y) eqn:Fy.
  - pose proof (Bplus_correct 24 128 prec24 emax128 nan_add mode_NE x y Fx Fy) as C. fold (fadd x y) in C.
    assert (P : (0 <= B2R 24 128 x + B2R 24 128 y)%R).
    { pose proof (sign_val_pos x Sx) as P1. pose proof (sign_val_pos y Sy) as P2. unfold val in *. lra. }
    destruct (Rlt_bool _ _).
    + destruct C as (_ & _ & C). unfold sign_bit in *. rewrite C. rewrite Sx, Sy.
      destruct (Rcompare_spec (B2R 24 128 x + B2R 24 128 y) 0); trivial. lra.
    + destruct C as [C _]. destruct (fadd x y) as [s|s|s p H|s m e H]; try discriminate.
      simpl in C. unfold sign_bit in *. inversion C. subst s. simpl. exact Sx.
  - destruct x; try discriminate; destruct y; try discriminate; exact Sy.
  - destruct x; try discriminate; destruct y; try discriminate; exact Sx.
  - destruct x as [a|a|a p H|a m e H]; try discriminate; destruct y as [b|b|b p H|b m e H]; try discriminate.
    cbn in Sx, Sy. subst. reflexivity.
Qed.

Lemma sum_sq_nonneg : forall {E : Env} l m, nonneg (sum_sq_dev l m).
Proof.
  intros E l m. unfold sum_sq_dev.
  assert (G : forall s, nonneg s -> nonneg (fold_left (fun sum item => let n := fsub item m in fadd sum (fmul n n)) l s)).
  { induction l as [|a l IH]; intros s H; [exact H|]. cbn [fold_left]. apply IH.
    apply fadd_nonneg; [exact H|apply sq_nonneg]. }
  apply G. right. reflexivity.
Qed.

Lemma fdiv_nonneg : forall {E : Env} x y, nonneg x -> sign_bit y = false -> nonneg (fdiv x y).
Proof.
  intros E x y Hx Hy. destruct Hx as [N|S]; [left; apply fdiv_nan; auto|].
  destruct (is_nan (fdiv x y)) eqn:N; [left; exact N|right].
  destruct (is_nan x) eqn:Nx.
  { exfalso. assert (M : nan (fdiv x y)) by (apply fdiv_nan; left; exact Nx). unfold nan in M. congruence. }
  destruct (is_nan y) eqn:Ny.
  { exfalso. assert (M : nan (fdiv x y)) by (apply fdiv_nan; right; exact Ny). unfold nan in M. congruence. }
  destruct y as [b|b|b p H|b m e H].
  - destruct x as [a|a|a p H|a m e H]; cbn in S, Hy; subst; try reflexivity; try discriminate.
  - destruct x as [a|a|a p' H'|a m' e' H']; cbn in S, Hy; subst; try reflexivity; try discriminate.
  - discriminate.
  - assert (Z : B2R 24 128 (B754_finite b m e H) <> 0%R).
    { intros C. change (val (B754_finite b m e H) = 0%R) in C. unfold val in C. simpl in C.
      apply eq_0_F2R in C. destruct b; discriminate. }
    pose proof (Bdiv_correct 24 128 prec24 emax128 nan_div mode_NE x _ Z) as C.
    fold (fdiv x (B754_finite b m e H)) in C. destruct (Rlt_bool _ _).
    + destruct C as (_ & _ & C). unfold sign_bit in *. rewrite C by exact N. rewrite S, Hy. reflexivity.
    + destruct (fdiv x (B754_finite b m e H)) as [s|s|s p' H'|s m' e' H']; try discriminate.
      unfold sign_bit in *. simpl in *. inversion C. rewrite S, Hy. reflexivity.
Qed.

Lemma len_minus_1 : forall {E : Env} n, 0 < n < 2 ^ 64 -> sign_bit (fsub (f32_of_Z n) F32_ONE) = false.
Proof.
  intros E n H. destruct (f32_of_Z_R n) as [A B]; [lia|].
  assert (V1 : fin F32_ONE /\ val F32_ONE = 1%R) by apply one_val. destruct V1 as [F1 V1].
  assert (G : (1 <= val (f32_of_Z n))%R).
  { rewrite B. change 1%R with (bpow radix2 0). rewrite <- (rnd_fmt _ (fmt_bpow 0 ltac:(lia))). apply rnd_le.
    change (bpow radix2 0) with (IZR 1). apply IZR_le. lia. }
  pose proof (Bminus_correct 24 128 prec24 emax128 nan_sub mode_NE (f32_of_Z n) F32_ONE A F1) as C.
  fold (fsub (f32_of_Z n) F32_ONE) in C. fold (val (f32_of_Z n)) in C. fold (val F32_ONE) in C. rewrite V1 in C.
  assert (S : sign_bit (f32_of_Z n) = false).
  { destruct (sign_bit (f32_of_Z n)) eqn:S; trivial. pose proof (sign_val_neg _ S). lra. }
  destruct (Rlt_bool _ _).
  - destruct C as (_ & _ & C). unfold sign_bit in *. rewrite C.
    destruct (Rcompare_spec (val (f32_of_Z n) - 1) 0); trivial; [lra|]. rewrite S. reflexivity.
  - destruct C as [C _]. destruct (fsub _ _) as [s|s|s p H0|s m e H0]; try discriminate.
    simpl in C. unfold sign_bit in *. inversion C. exact S.
Qed.

Lemma variance_eq : forall {E : Env} {T} (into : T -> f32) l m, mean (map into l) = Ok m ->
  variance into l = Ok (fdiv (sum_sq_dev (map into l) m) (fsub (f32_of_Z (Z.of_nat (length l))) F32_ONE)).
Proof. intros E T into l m H. unfold variance. rewrite H. reflexivity. Qed.

Lemma variance_nonneg : forall {E : Env} {T} (into : T -> f32) l v, l <> [] -> Z.of_nat (length l) < 2 ^ 64 ->
  variance into l = Ok v -> nonneg v.
Proof.
  intros E T into l v H L V. unfold variance in V. apply bind_ok in V. destruct V as (m & _ & V). injection V as <-.
  apply fdiv_nonneg; [apply sum_sq_nonneg|]. apply len_minus_1.
  destruct l; [congruence|]. change (length (t :: l)) with (S (length l)) in *. lia.
Qed.

Lemma variance_empty : forall {E : Env} {T} (into : T -> f32),
  variance into [] = Ok (f32_zero true) /\ stddev into [] = Ok (from_bits 0x5FC00000).
Proof.
  intros E T into. assert (V : variance into [] = Ok (f32_zero true)) by reflexivity.
  split; [exact V|]. unfold stddev. rewrite V. cbn [bind]. apply sqrt_edges.
Qed.

Lemma fadd_zero_val : forall {E : Env} x, fin x -> fin (fadd (f32_zero false) x) /\ val (fadd (f32_zero false) x) = val x.
Proof.
  intros E x F. destruct x as [s|s|s p H|s m e H]; try discriminate; [destruct s; split; reflexivity|split; reflexivity].
Qed.

Lemma fdiv_one_val : forall {E : Env} x, fin x -> fin (fdiv x F32_ONE) /\ val (fdiv x F32_ONE) = val x.
Proof.
  intros E x F. destruct one_val as [F1 V1].
  assert (D : (val x / val F32_ONE = val x)%R) by (rewrite V1; field).
  destruct (fdiv_R x F32_ONE F F1) as [A B].
  - rewrite V1. lra.
  - rewrite D. rewrite (rnd_fmt _ (fmt_val x)). apply (abs_B2R_lt_emax 24 128).
  - split; [exact A|]. rewrite B, D. apply rnd_fmt. apply fmt_val.
Qed.

Lemma fsub_eq_zero : forall {E : Env} x y, fin x -> fin y -> val x = val y -> fin (fsub x y) /\ val (fsub x y) = 0%R.
Proof.
  intros E x y Fx Fy V. destruct (fsub_R x y Fx Fy) as [A B].
  { apply (small_lt_128 0); [lia|]. rewrite V. unfold Rminus. rewrite Rplus_opp_r, Rabs_R0. simpl. lra. }
  split; [exact A|]. rewrite B, V. unfold Rminus. rewrite Rplus_opp_r. apply rnd_fmt, generic_format_0.
Qed.

Lemma val_zero_inv : forall x, fin x -> val x = 0%R -> exists s, x = f32_zero s.
Proof.
  intros x F V. destruct x as [s|s|s p H|s m e H]; try discriminate; [exists s; reflexivity|].
  exfalso. unfold val in V. simpl in V. apply eq_0_F2R in V. destruct s; discriminate.
Qed.

Lemma mean_one : forall {E : Env} x, fin x -> exists m, mean [x] = Ok m /\ fin m /\ val m = val x.
Proof.
  intros E x F. rewrite mean_spec by (simpl; lia). cbn [fold_left].
  destruct (fadd_zero_val x F) as [A B]. replace (f32_of_Z (Z.of_nat (length [x]))) with F32_ONE.
  2:{ apply to_bits_inj. vm_compute. reflexivity. }
  destruct (fdiv_one_val _ A) as [C D]. eexists. split; [reflexivity|]. split; [exact C|]. rewrite D. exact B.
Qed.

Lemma variance_one : forall {E : Env} {T} (into : T -> f32) x, fin (into x) ->
  exists v, variance into [x] = Ok v /\ nan v.
Proof.
  intros E T into x F. destruct (mean_one (into x) F) as (m & M & Fm & Vm).
  rewrite (variance_eq into [x] m M). eexists. split; [reflexivity|].
  unfold sum_sq_dev. cbn [map fold_left]. cbv zeta.
  destruct (fsub_eq_zero (into x) m F Fm (eq_sym Vm)) as [A B]. destruct (val_zero_inv _ A B) as [s ->].
  replace (fsub (f32_of_Z (Z.of_nat (length [x]))) F32_ONE) with (f32_zero false).
  2:{ apply to_bits_inj. vm_compute. reflexivity. }
  replace (fadd (f32_zero false) (fmul (f32_zero s) (f32_zero s))) with (f32_zero false) by (destruct s; reflexivity).
  refine (build_nan_nan _).
Qed.

(** ** stddev *)

Lemma stddev_accuracy : forall {E : Env} {T} (into : T -> f32) l v, variance into l = Ok v -> normal_pos v ->
  exists z, stddev into l = Ok z /\ normal_pos z /\
    ((1 - bpow radix2 (-24)) * sqrt (val v) <= val z <= 1.06067 * sqrt (val v))%R.
Proof.
  intros E T into l v V N. unfold stddev. rewrite V. cbn [bind]. apply sqrt_accuracy. exact N.
Qed.

(** ** trim *)

Lemma trim_new_spec : forall {E : Env} {T} (into : T -> f32) l t m sd,
  mean (map into l) = Ok m -> stddev into l = Ok sd -> trim_new into l t = Ok (mkTrim l m sd t).
Proof.
  intros E T into l t m sd M S. unfold trim_new. rewrite M. cbn [bind]. cbv zeta.
  unfold stddev in S. rewrite (variance_eq into l m M) in S. cbn [bind] in S. rewrite S. reflexivity.
Qed.

(** The iterator after [k] calls of [next]. *)
Fixpoint trim_after {E : Env} {T} (into : T -> f32) (k : nat) (it : TrimIter T) : TrimIter T :=
  match k with O => it | S k => trim_after into k (snd (trim_next into it)) end.

Lemma trim_next_spec : forall {E : Env} {T} (into : T -> f32) l m sd t,
  let keep := fun n => flt (fdiv (F32_abs (fsub (into n) m)) sd) t in
  match filter keep l with
  | [] => trim_next into (mkTrim l m sd t) = (None, mkTrim [] m sd t)
  | n :: r => exists l', trim_next into (mkTrim l m sd t) = (Some n, mkTrim l' m sd t) /\ filter keep l' = r /\
                         (length l' < length l)%nat
  end.
Proof.
  intros E T into l m sd t keep. unfold trim_next. cbn [ti_input ti_mean ti_stddev ti_threshold].
  set (it := mkTrim l m sd t).
  assert (K : forall n, trim_keep into it n = keep n) by reflexivity.
  clearbody it. induction l as [|a l IH]; [reflexivity|]. cbn [filter trim_next_loop]. rewrite K.
  destruct (keep a) eqn:Ka.
  - exists l. split; [reflexivity|]. split; [reflexivity|]. simpl. lia.
  - destruct (filter keep l) as [|n r].
    + exact IH.
    + destruct IH as (l' & A & B & C). exists l'. split; [exact A|]. split; [exact B|]. simpl. lia.
Qed.

Lemma trim_calls : forall {E : Env} {T} (into : T -> f32) k l m sd t,
  let keep := fun n => flt (fdiv (F32_abs (fsub (into n) m)) sd) t in
  fst (trim_next into (trim_after into k (mkTrim l m sd t))) = nth_error (filter keep l) k.
Proof.
  intros E T into k. induction k as [|k IH]; intros l m sd t keep.
  - cbn [trim_after nth_error]. pose proof (trim_next_spec into l m sd t) as S. cbv zeta in S. fold keep in S.
    destruct (filter keep l) as [|n r]; [rewrite S; reflexivity|]. destruct S as (l' & S & _). rewrite S. reflexivity.
  - cbn [trim_after]. pose proof (trim_next_spec into l m sd t) as S. cbv zeta in S. fold keep in S.
    destruct (filter keep l) as [|n r] eqn:F.
    + rewrite S. cbn [snd]. rewrite IH. destruct k; reflexivity.
    + destruct S as (l' & S & R & _). rewrite S. cbn [snd]. rewrite IH. fold keep. rewrite R. reflexivity.
Qed.

Lemma trim_collect_spec : forall {E : Env} {T} (into : T -> f32) fuel l m sd t,
  let keep := fun n => flt (fdiv (F32_abs (fsub (into n) m)) sd) t in
  (length l < fuel)%nat -> trim_collect into fuel (mkTrim l m sd t) = filter keep l.
Proof.
  intros E T into fuel. induction fuel as [|fuel IH]; intros l m sd t keep L; [lia|].
  cbn [trim_collect]. pose proof (trim_next_spec into l m sd t) as S. cbv zeta in S. fold keep in S.
  destruct (filter keep l) as [|n r].
  - rewrite S. reflexivity.
  - destruct S as (l' & S & R & D). rewrite S. f_equal. rewrite IH by lia. exact R.
Qed.

Lemma trim_at_spec : forall {E : Env} {T} (into : T -> f32) l t m sd,
  mean (map into l) = Ok m -> stddev into l = Ok sd ->
  trim_at into l t = Ok (filter (fun n => flt (fdiv (F32_abs (fsub (into n) m)) sd) t) l).
Proof.
  intros E T into l t m sd M S. unfold trim_at. rewrite (trim_new_spec into l t m sd M S). cbn [bind].
  rewrite trim_collect_spec by lia. reflexivity.
Qed.

Lemma stddev_total : forall {E : Env} {T} (into : T -> f32) l, Z.of_nat (length l) < 2 ^ 31 ->
  exists m v sd, mean (map into l) = Ok m /\ variance into l = Ok v /\ stddev into l = Ok sd.
Proof.
  intros E T into l H. assert (M := mean_spec (map into l)). rewrite map_length in M. specialize (M H).
  eexists. eexists. unfold stddev. rewrite (variance_eq into l _ M). cbn [bind].
  match goal with |- context [F32_sqrt ?v] => destruct (sqrt_total v) as [z Z] end.
  exists z. split; [exact M|]. split; [reflexivity|exact Z].
Qed.

(** ** degenerate slices *)

Lemma filter_none : forall {A} (f : A -> bool) l, (forall a, In a l -> f a = false) -> filter f l = [].
Proof.
  intros A f l H. induction l as [|a l IH]; [reflexivity|]. simpl. rewrite H by (left; reflexivity).
  apply IH. intros b J. apply H. right. exact J.
Qed.

Lemma flt_inf : forall t, flt (f32_inf false) t = false.
Proof. intros t. destruct t as [s|s|s p H|s m e H]; try reflexivity. destruct s; reflexivity. Qed.

(** If the mean is not finite nothing passes the test. *)
Lemma keep_nonfinite : forall {E : Env} x m sd t, is_finite m = false -> nan sd \/ sign_bit sd = false ->
  flt (fdiv (F32_abs (fsub x m)) sd) t = false.
Proof.
  intros E x m sd t F Hs.
  assert (D : nan (F32_abs (fsub x m)) \/ F32_abs (fsub x m) = f32_inf false).
  { destruct m as [s|s|s p H|s m e H]; try discriminate.
    - destruct x as [a|a|a p H|a m e H].
      + right. apply to_bits_inj. destruct s, a; vm_compute; reflexivity.
      + destruct s, a; try (left; apply abs_nan; refine (build_nan_nan _)); right; apply to_bits_inj; vm_compute; reflexivity.
      + left. apply abs_nan. apply fsub_nan. left. reflexivity.
      + right. change (fsub (B754_finite a m e H) (B754_infinity s)) with (f32_inf (negb s)).
        apply to_bits_inj. destruct s; vm_compute; reflexivity.
    - left. apply abs_nan. apply fsub_nan. right. reflexivity. }
  destruct D as [D|D].
  - apply flt_nan. left. apply fdiv_nan. left. exact D.
  - rewrite D. destruct Hs as [Hs|Hs]; [apply flt_nan; left; apply fdiv_nan; right; exact Hs|].
    destruct sd as [b|b|b p H|b m' e H]; cbn in Hs; subst; try (apply flt_inf).
    + apply flt_nan. left. refine (build_nan_nan _).
    + apply flt_nan. left. apply fdiv_nan. right. reflexivity.
Qed.

Lemma sqrt_sign : forall {E : Env} x z, F32_sqrt x = Ok z -> nan z \/ sign_bit z = false.
Proof.
  intros E x z H. unfold F32_sqrt in H. destruct (fge x F32_ZERO).
  - apply bind_ok in H. destruct H as (s & A & H). injection H as <-. right.
    destruct (arith_ok_inv u32 _ _ ltac:(right; right; right; right; right; left; reflexivity) A) as [[F _] _].
    unfold fits in F. cbn in F. unfold sign_bit. rewrite Z.shiftr_div_pow2 by lia. change (2 ^ 1) with 2.
    assert (B : 0 <= s / 2 < 2 ^ 31) by (split; [apply Z.div_pos; lia|apply Z.div_lt_upper_bound; lia]).
    fold (sign_bit (from_bits (s / 2))). rewrite sign_bit_ge, to_from_bits by lia. apply Z.leb_gt. lia.
  - injection H as <-. left. apply NAN_nan.
Qed.

Lemma trim_nonfinite_mean : forall {E : Env} {T} (into : T -> f32) l t m, Z.of_nat (length l) < 2 ^ 31 ->
  mean (map into l) = Ok m -> is_finite m = false -> trim_at into l t = Ok [].
Proof.
  intros E T into l t m L M F. destruct (stddev_total into l L) as (m' & v & sd & M' & V & S).
  rewrite (trim_at_spec into l t m sd M S). f_equal. apply filter_none. intros a _. apply keep_nonfinite; [exact F|].
  unfold stddev in S. rewrite V in S. cbn [bind] in S. apply (sqrt_sign v). exact S.
Qed.

Lemma fadd_nonfinite : forall {E : Env} x y, is_finite x = false \/ is_finite y = false -> is_finite (fadd x y) = false.
Proof.
  intros E x y H. destruct x as [a|a|a p K|a m e K]; destruct y as [b|b|b q K'|b m' e' K']; try (destruct H; discriminate);
    try reflexivity; try (destruct a, b; reflexivity).
Qed.
Lemma fold_nonfinite : forall {E : Env} l s, is_finite s = false -> is_finite (fold_left fadd l s) = false.
Proof.
  intros E l. induction l as [|a l IH]; intros s H; [exact H|]. apply IH. apply fadd_nonfinite. left. exact H.
Qed.
Lemma fold_nonfinite_in : forall {E : Env} l s x, In x l -> is_finite x = false -> is_finite (fold_left fadd l s) = false.
Proof.
  intros E l. induction l as [|a l IH]; intros s x I H; [destruct I|]. destruct I as [->|I].
  - apply (fold_nonfinite l). apply fadd_nonfinite. right. exact H.
  - apply (IH _ x); assumption.
Qed.
Lemma fdiv_nonfinite : forall {E : Env} x y, is_finite x = false -> is_finite y = true -> is_finite (fdiv x y) = false.
Proof.
  intros E x y H F. destruct x as [a|a|a p K|a m e K]; try discriminate; destruct y as [b|b|b q K'|b m' e' K']; try discriminate;
    reflexivity.
Qed.

Lemma mean_nonfinite : forall {E : Env} l x, Z.of_nat (length l) < 2 ^ 31 -> In x l -> is_finite x = false ->
  exists m, mean l = Ok m /\ is_finite m = false.
Proof.
  intros E l x L I F. rewrite mean_spec by exact L. eexists. split; [reflexivity|].
  apply fdiv_nonfinite; [apply (fold_nonfinite_in l _ x); assumption|]. apply f32_of_Z_R. lia.
Qed.

Lemma trim_nonfinite : forall {E : Env} {T} (into : T -> f32) l t x, Z.of_nat (length l) < 2 ^ 31 ->
  In x l -> is_finite (into x) = false -> trim_at into l t = Ok [].
Proof.
  intros E T into l t x L I F.
  destruct (mean_nonfinite (map into l) (into x)) as (m & M & N).
  - rewrite map_length. exact L.
  - apply in_map. exact I.
  - exact F.
  - exact (trim_nonfinite_mean into l t m L M N).
Qed.

Lemma trim_one : forall {E : Env} {T} (into : T -> f32) x t, trim_at into [x] t = Ok [].
Proof.
  intros E T into x t. destruct (is_finite (into x)) eqn:F.
  - destruct (variance_one into x F) as (v & V & N). destruct (mean_one (into x) F) as (m & M & _).
    destruct (stddev_total into [x] ltac:(simpl; lia)) as (m' & v' & sd & _ & _ & S).
    rewrite (trim_at_spec into [x] t m sd M S). f_equal. apply filter_none. intros a _.
    apply flt_nan. left. apply fdiv_nan. right.
    unfold stddev in S. rewrite V in S. cbn [bind] in S.
    destruct (sqrt_neg_nan v (or_introl N)) as (z & Z & ZN). rewrite Z in S. injection S as <-. exact ZN.
  - apply (trim_nonfinite into [x] t x); trivial; [simpl; lia|left; reflexivity].
Qed.

Lemma trim_nan_threshold : forall {E : Env} {T} (into : T -> f32) l t, Z.of_nat (length l) < 2 ^ 31 -> nan t ->
  trim_at into l t = Ok [].
Proof.
  intros E T into l t L N. destruct (stddev_total into l L) as (m & v & sd & M & V & S).
  rewrite (trim_at_spec into l t m sd M S). f_equal. apply filter_none. intros a _. apply flt_nan. right. exact N.
Qed.

(** A threshold that is not positive keeps nothing. *)
Lemma abs_nonneg : forall x, nonneg (F32_abs x).
Proof.
  intros x. destruct (is_nan x) eqn:N; [left; apply abs_nan; exact N|right; apply abs_sign].
Qed.

Lemma nonneg_not_lt : forall x t, nonneg x -> fle t (f32_zero false) = true -> flt x t = false.
Proof.
  intros x t [N|S] H; [apply flt_nan; auto|].
  destruct (is_nan x) eqn:Nx; [apply flt_nan; left; exact Nx|].
  destruct t as [b|b|b q K'|b m' e' K']; try discriminate.
  - destruct x as [a|a|a p K|a m e K]; cbn in S; subst; try reflexivity; discriminate.
  - destruct b; [|discriminate]. destruct x as [a|a|a p K|a m e K]; cbn in S; subst; try reflexivity; discriminate.
  - destruct b; [|discriminate]. destruct x as [a|a|a p K|a m e K]; cbn in S; subst; try reflexivity; discriminate.
Qed.

Lemma trim_nonpositive : forall {E : Env} {T} (into : T -> f32) l t, Z.of_nat (length l) < 2 ^ 31 ->
  fle t (f32_zero false) = true -> trim_at into l t = Ok [].
Proof.
  intros E T into l t L H. destruct (stddev_total into l L) as (m & v & sd & M & V & S).
  rewrite (trim_at_spec into l t m sd M S). f_equal. apply filter_none. intros a _. apply nonneg_not_lt; [|exact H].
  unfold stddev in S. rewrite V in S. cbn [bind] in S. destruct (sqrt_sign v sd S) as [N|N].
  - left. apply fdiv_nan. right. exact N.
  - apply fdiv_nonneg; [apply abs_nonneg|exact N].
Qed.
